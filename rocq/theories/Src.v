(* Generated by tools/gen_src.py: the table of all prebuilt programs, in file-name order. *)
From Coq Require Import List.
From Verif Require Export Bytes Src1 Src2 Src3 Src4 Src5 Src6 Src7.
Import ListNotations.

(** A prebuilt functional: its name and the text of its polarized and
    unpolarized programs. *)
Record source := Source { src_name : bstr; src_pol : list bstr; src_unpol : list bstr }.

Definition f_gga_c_acgga : source := Source "gga_c_acgga" pol_gga_c_acgga unpol_gga_c_acgga.
Definition f_gga_c_acggap : source := Source "gga_c_acggap" pol_gga_c_acggap unpol_gga_c_acggap.
Definition f_gga_c_am05 : source := Source "gga_c_am05" pol_gga_c_am05 unpol_gga_c_am05.
Definition f_gga_c_bmk : source := Source "gga_c_bmk" pol_gga_c_bmk unpol_gga_c_bmk.
Definition f_gga_c_ccdf : source := Source "gga_c_ccdf" pol_gga_c_ccdf unpol_gga_c_ccdf.
Definition f_gga_c_chachiyo : source := Source "gga_c_chachiyo" pol_gga_c_chachiyo unpol_gga_c_chachiyo.
Definition f_gga_c_cs1 : source := Source "gga_c_cs1" pol_gga_c_cs1 unpol_gga_c_cs1.
Definition f_gga_c_ft97 : source := Source "gga_c_ft97" pol_gga_c_ft97 unpol_gga_c_ft97.
Definition f_gga_c_gapc : source := Source "gga_c_gapc" pol_gga_c_gapc unpol_gga_c_gapc.
Definition f_gga_c_gaploc : source := Source "gga_c_gaploc" pol_gga_c_gaploc unpol_gga_c_gaploc.
Definition f_gga_c_hcth_a : source := Source "gga_c_hcth_a" pol_gga_c_hcth_a unpol_gga_c_hcth_a.
Definition f_gga_c_lm : source := Source "gga_c_lm" pol_gga_c_lm unpol_gga_c_lm.
Definition f_gga_c_lyp : source := Source "gga_c_lyp" pol_gga_c_lyp unpol_gga_c_lyp.
Definition f_gga_c_lypr : source := Source "gga_c_lypr" pol_gga_c_lypr unpol_gga_c_lypr.
Definition f_gga_c_op_b88 : source := Source "gga_c_op_b88" pol_gga_c_op_b88 unpol_gga_c_op_b88.
Definition f_gga_c_op_g96 : source := Source "gga_c_op_g96" pol_gga_c_op_g96 unpol_gga_c_op_g96.
Definition f_gga_c_op_pbe : source := Source "gga_c_op_pbe" pol_gga_c_op_pbe unpol_gga_c_op_pbe.
Definition f_gga_c_op_pw91 : source := Source "gga_c_op_pw91" pol_gga_c_op_pw91 unpol_gga_c_op_pw91.
Definition f_gga_c_op_xalpha : source := Source "gga_c_op_xalpha" pol_gga_c_op_xalpha unpol_gga_c_op_xalpha.
Definition f_gga_c_optc : source := Source "gga_c_optc" pol_gga_c_optc unpol_gga_c_optc.
Definition f_gga_c_p86 : source := Source "gga_c_p86" pol_gga_c_p86 unpol_gga_c_p86.
Definition f_gga_c_p86vwn : source := Source "gga_c_p86vwn" pol_gga_c_p86vwn unpol_gga_c_p86vwn.
Definition f_gga_c_pbe : source := Source "gga_c_pbe" pol_gga_c_pbe unpol_gga_c_pbe.
Definition f_gga_c_pbe_vwn : source := Source "gga_c_pbe_vwn" pol_gga_c_pbe_vwn unpol_gga_c_pbe_vwn.
Definition f_gga_c_pbeloc : source := Source "gga_c_pbeloc" pol_gga_c_pbeloc unpol_gga_c_pbeloc.
Definition f_gga_c_pw91 : source := Source "gga_c_pw91" pol_gga_c_pw91 unpol_gga_c_pw91.
Definition f_gga_c_q2d : source := Source "gga_c_q2d" pol_gga_c_q2d unpol_gga_c_q2d.
Definition f_gga_c_regtpss : source := Source "gga_c_regtpss" pol_gga_c_regtpss unpol_gga_c_regtpss.
Definition f_gga_c_revtca : source := Source "gga_c_revtca" pol_gga_c_revtca unpol_gga_c_revtca.
Definition f_gga_c_scan_e0 : source := Source "gga_c_scan_e0" pol_gga_c_scan_e0 unpol_gga_c_scan_e0.
Definition f_gga_c_sg4 : source := Source "gga_c_sg4" pol_gga_c_sg4 unpol_gga_c_sg4.
Definition f_gga_c_sogga11 : source := Source "gga_c_sogga11" pol_gga_c_sogga11 unpol_gga_c_sogga11.
Definition f_gga_c_tca : source := Source "gga_c_tca" pol_gga_c_tca unpol_gga_c_tca.
Definition f_gga_c_w94 : source := Source "gga_c_w94" pol_gga_c_w94 unpol_gga_c_w94.
Definition f_gga_c_wi : source := Source "gga_c_wi" pol_gga_c_wi unpol_gga_c_wi.
Definition f_gga_c_wl : source := Source "gga_c_wl" pol_gga_c_wl unpol_gga_c_wl.
Definition f_gga_c_zpbeint : source := Source "gga_c_zpbeint" pol_gga_c_zpbeint unpol_gga_c_zpbeint.
Definition f_gga_c_zvpbeint : source := Source "gga_c_zvpbeint" pol_gga_c_zvpbeint unpol_gga_c_zvpbeint.
Definition f_gga_c_zvpbeloc : source := Source "gga_c_zvpbeloc" pol_gga_c_zvpbeloc unpol_gga_c_zvpbeloc.
Definition f_gga_k_apbe : source := Source "gga_k_apbe" pol_gga_k_apbe unpol_gga_k_apbe.
Definition f_gga_k_apbeint : source := Source "gga_k_apbeint" pol_gga_k_apbeint unpol_gga_k_apbeint.
Definition f_gga_k_dk : source := Source "gga_k_dk" pol_gga_k_dk unpol_gga_k_dk.
Definition f_gga_k_exp4 : source := Source "gga_k_exp4" pol_gga_k_exp4 unpol_gga_k_exp4.
Definition f_gga_k_lc94 : source := Source "gga_k_lc94" pol_gga_k_lc94 unpol_gga_k_lc94.
Definition f_gga_k_lgap : source := Source "gga_k_lgap" pol_gga_k_lgap unpol_gga_k_lgap.
Definition f_gga_k_lgap_ge : source := Source "gga_k_lgap_ge" pol_gga_k_lgap_ge unpol_gga_k_lgap_ge.
Definition f_gga_k_lkt : source := Source "gga_k_lkt" pol_gga_k_lkt unpol_gga_k_lkt.
Definition f_gga_k_llp : source := Source "gga_k_llp" pol_gga_k_llp unpol_gga_k_llp.
Definition f_gga_k_meyer : source := Source "gga_k_meyer" pol_gga_k_meyer unpol_gga_k_meyer.
Definition f_gga_k_mpbe : source := Source "gga_k_mpbe" pol_gga_k_mpbe unpol_gga_k_mpbe.
Definition f_gga_k_ol1 : source := Source "gga_k_ol1" pol_gga_k_ol1 unpol_gga_k_ol1.
Definition f_gga_k_ol2 : source := Source "gga_k_ol2" pol_gga_k_ol2 unpol_gga_k_ol2.
Definition f_gga_k_pearson : source := Source "gga_k_pearson" pol_gga_k_pearson unpol_gga_k_pearson.
Definition f_gga_k_pg : source := Source "gga_k_pg" pol_gga_k_pg unpol_gga_k_pg.
Definition f_gga_k_pw86 : source := Source "gga_k_pw86" pol_gga_k_pw86 unpol_gga_k_pw86.
Definition f_gga_k_rational_p : source := Source "gga_k_rational_p" pol_gga_k_rational_p unpol_gga_k_rational_p.
Definition f_gga_k_tflw : source := Source "gga_k_tflw" pol_gga_k_tflw unpol_gga_k_tflw.
Definition f_gga_k_thakkar : source := Source "gga_k_thakkar" pol_gga_k_thakkar unpol_gga_k_thakkar.
Definition f_gga_k_vt84f : source := Source "gga_k_vt84f" pol_gga_k_vt84f unpol_gga_k_vt84f.
Definition f_gga_x_2d_b86 : source := Source "gga_x_2d_b86" pol_gga_x_2d_b86 unpol_gga_x_2d_b86.
Definition f_gga_x_2d_b86_mgc : source := Source "gga_x_2d_b86_mgc" pol_gga_x_2d_b86_mgc unpol_gga_x_2d_b86_mgc.
Definition f_gga_x_2d_b88 : source := Source "gga_x_2d_b88" pol_gga_x_2d_b88 unpol_gga_x_2d_b88.
Definition f_gga_x_2d_pbe : source := Source "gga_x_2d_pbe" pol_gga_x_2d_pbe unpol_gga_x_2d_pbe.
Definition f_gga_x_airy : source := Source "gga_x_airy" pol_gga_x_airy unpol_gga_x_airy.
Definition f_gga_x_ak13 : source := Source "gga_x_ak13" pol_gga_x_ak13 unpol_gga_x_ak13.
Definition f_gga_x_am05 : source := Source "gga_x_am05" pol_gga_x_am05 unpol_gga_x_am05.
Definition f_gga_x_b86 : source := Source "gga_x_b86" pol_gga_x_b86 unpol_gga_x_b86.
Definition f_gga_x_b88 : source := Source "gga_x_b88" pol_gga_x_b88 unpol_gga_x_b88.
Definition f_gga_x_bayesian : source := Source "gga_x_bayesian" pol_gga_x_bayesian unpol_gga_x_bayesian.
Definition f_gga_x_beefvdw : source := Source "gga_x_beefvdw" pol_gga_x_beefvdw unpol_gga_x_beefvdw.
Definition f_gga_x_bpccac : source := Source "gga_x_bpccac" pol_gga_x_bpccac unpol_gga_x_bpccac.
Definition f_gga_x_c09x : source := Source "gga_x_c09x" pol_gga_x_c09x unpol_gga_x_c09x.
Definition f_gga_x_cap : source := Source "gga_x_cap" pol_gga_x_cap unpol_gga_x_cap.
Definition f_gga_x_chachiyo : source := Source "gga_x_chachiyo" pol_gga_x_chachiyo unpol_gga_x_chachiyo.
Definition f_gga_x_dk87 : source := Source "gga_x_dk87" pol_gga_x_dk87 unpol_gga_x_dk87.
Definition f_gga_x_ev93 : source := Source "gga_x_ev93" pol_gga_x_ev93 unpol_gga_x_ev93.
Definition f_gga_x_fd_lb94 : source := Source "gga_x_fd_lb94" pol_gga_x_fd_lb94 unpol_gga_x_fd_lb94.
Definition f_gga_x_ft97 : source := Source "gga_x_ft97" pol_gga_x_ft97 unpol_gga_x_ft97.
Definition f_gga_x_g96 : source := Source "gga_x_g96" pol_gga_x_g96 unpol_gga_x_g96.
Definition f_gga_x_gg99 : source := Source "gga_x_gg99" pol_gga_x_gg99 unpol_gga_x_gg99.
Definition f_gga_x_hcth_a : source := Source "gga_x_hcth_a" pol_gga_x_hcth_a unpol_gga_x_hcth_a.
Definition f_gga_x_herman : source := Source "gga_x_herman" pol_gga_x_herman unpol_gga_x_herman.
Definition f_gga_x_hjs : source := Source "gga_x_hjs" pol_gga_x_hjs unpol_gga_x_hjs.
Definition f_gga_x_hjs_b88_v2 : source := Source "gga_x_hjs_b88_v2" pol_gga_x_hjs_b88_v2 unpol_gga_x_hjs_b88_v2.
Definition f_gga_x_htbs : source := Source "gga_x_htbs" pol_gga_x_htbs unpol_gga_x_htbs.
Definition f_gga_x_ityh : source := Source "gga_x_ityh" pol_gga_x_ityh unpol_gga_x_ityh.
Definition f_gga_x_ityh_optx : source := Source "gga_x_ityh_optx" pol_gga_x_ityh_optx unpol_gga_x_ityh_optx.
Definition f_gga_x_ityh_pbe : source := Source "gga_x_ityh_pbe" pol_gga_x_ityh_pbe unpol_gga_x_ityh_pbe.
Definition f_gga_x_kt : source := Source "gga_x_kt" pol_gga_x_kt unpol_gga_x_kt.
Definition f_gga_x_lag : source := Source "gga_x_lag" pol_gga_x_lag unpol_gga_x_lag.
Definition f_gga_x_lb : source := Source "gga_x_lb" pol_gga_x_lb unpol_gga_x_lb.
Definition f_gga_x_lg93 : source := Source "gga_x_lg93" pol_gga_x_lg93 unpol_gga_x_lg93.
Definition f_gga_x_lspbe : source := Source "gga_x_lspbe" pol_gga_x_lspbe unpol_gga_x_lspbe.
Definition f_gga_x_lsrpbe : source := Source "gga_x_lsrpbe" pol_gga_x_lsrpbe unpol_gga_x_lsrpbe.
Definition f_gga_x_lv_rpw86 : source := Source "gga_x_lv_rpw86" pol_gga_x_lv_rpw86 unpol_gga_x_lv_rpw86.
Definition f_gga_x_mpbe : source := Source "gga_x_mpbe" pol_gga_x_mpbe unpol_gga_x_mpbe.
Definition f_gga_x_n12 : source := Source "gga_x_n12" pol_gga_x_n12 unpol_gga_x_n12.
Definition f_gga_x_ncap : source := Source "gga_x_ncap" pol_gga_x_ncap unpol_gga_x_ncap.
Definition f_gga_x_ol2 : source := Source "gga_x_ol2" pol_gga_x_ol2 unpol_gga_x_ol2.
Definition f_gga_x_optx : source := Source "gga_x_optx" pol_gga_x_optx unpol_gga_x_optx.
Definition f_gga_x_pbe : source := Source "gga_x_pbe" pol_gga_x_pbe unpol_gga_x_pbe.
Definition f_gga_x_pbea : source := Source "gga_x_pbea" pol_gga_x_pbea unpol_gga_x_pbea.
Definition f_gga_x_pbeint : source := Source "gga_x_pbeint" pol_gga_x_pbeint unpol_gga_x_pbeint.
Definition f_gga_x_pbepow : source := Source "gga_x_pbepow" pol_gga_x_pbepow unpol_gga_x_pbepow.
Definition f_gga_x_pbetrans : source := Source "gga_x_pbetrans" pol_gga_x_pbetrans unpol_gga_x_pbetrans.
Definition f_gga_x_pw86 : source := Source "gga_x_pw86" pol_gga_x_pw86 unpol_gga_x_pw86.
Definition f_gga_x_pw91 : source := Source "gga_x_pw91" pol_gga_x_pw91 unpol_gga_x_pw91.
Definition f_gga_x_q1d : source := Source "gga_x_q1d" pol_gga_x_q1d unpol_gga_x_q1d.
Definition f_gga_x_q2d : source := Source "gga_x_q2d" pol_gga_x_q2d unpol_gga_x_q2d.
Definition f_gga_x_rge2 : source := Source "gga_x_rge2" pol_gga_x_rge2 unpol_gga_x_rge2.
Definition f_gga_x_rpbe : source := Source "gga_x_rpbe" pol_gga_x_rpbe unpol_gga_x_rpbe.
Definition f_gga_x_s12 : source := Source "gga_x_s12" pol_gga_x_s12 unpol_gga_x_s12.
Definition f_gga_x_sfat : source := Source "gga_x_sfat" pol_gga_x_sfat unpol_gga_x_sfat.
Definition f_gga_x_sfat_pbe : source := Source "gga_x_sfat_pbe" pol_gga_x_sfat_pbe unpol_gga_x_sfat_pbe.
Definition f_gga_x_sg4 : source := Source "gga_x_sg4" pol_gga_x_sg4 unpol_gga_x_sg4.
Definition f_gga_x_sogga11 : source := Source "gga_x_sogga11" pol_gga_x_sogga11 unpol_gga_x_sogga11.
Definition f_gga_x_ssb_sw : source := Source "gga_x_ssb_sw" pol_gga_x_ssb_sw unpol_gga_x_ssb_sw.
Definition f_gga_x_vmt : source := Source "gga_x_vmt" pol_gga_x_vmt unpol_gga_x_vmt.
Definition f_gga_x_vmt84 : source := Source "gga_x_vmt84" pol_gga_x_vmt84 unpol_gga_x_vmt84.
Definition f_gga_x_wc : source := Source "gga_x_wc" pol_gga_x_wc unpol_gga_x_wc.
Definition f_gga_x_wpbeh : source := Source "gga_x_wpbeh" pol_gga_x_wpbeh unpol_gga_x_wpbeh.
Definition f_gga_xc_b97 : source := Source "gga_xc_b97" pol_gga_xc_b97 unpol_gga_xc_b97.
Definition f_gga_xc_th1 : source := Source "gga_xc_th1" pol_gga_xc_th1 unpol_gga_xc_th1.
Definition f_gga_xc_th2 : source := Source "gga_xc_th2" pol_gga_xc_th2 unpol_gga_xc_th2.
Definition f_gga_xc_th3 : source := Source "gga_xc_th3" pol_gga_xc_th3 unpol_gga_xc_th3.
Definition f_hyb_gga_x_cam_s12 : source := Source "hyb_gga_x_cam_s12" pol_hyb_gga_x_cam_s12 unpol_hyb_gga_x_cam_s12.
Definition f_hyb_gga_xc_case21 : source := Source "hyb_gga_xc_case21" pol_hyb_gga_xc_case21 unpol_hyb_gga_xc_case21.
Definition f_hyb_gga_xc_wb97 : source := Source "hyb_gga_xc_wb97" pol_hyb_gga_xc_wb97 unpol_hyb_gga_xc_wb97.
Definition f_hyb_lda_xc_bn05 : source := Source "hyb_lda_xc_bn05" pol_hyb_lda_xc_bn05 unpol_hyb_lda_xc_bn05.
Definition f_hyb_mgga_x_dldf : source := Source "hyb_mgga_x_dldf" pol_hyb_mgga_x_dldf unpol_hyb_mgga_x_dldf.
Definition f_hyb_mgga_x_js18 : source := Source "hyb_mgga_x_js18" pol_hyb_mgga_x_js18 unpol_hyb_mgga_x_js18.
Definition f_hyb_mgga_x_m05 : source := Source "hyb_mgga_x_m05" pol_hyb_mgga_x_m05 unpol_hyb_mgga_x_m05.
Definition f_hyb_mgga_x_pjs18 : source := Source "hyb_mgga_x_pjs18" pol_hyb_mgga_x_pjs18 unpol_hyb_mgga_x_pjs18.
Definition f_hyb_mgga_xc_wb97mv : source := Source "hyb_mgga_xc_wb97mv" pol_hyb_mgga_xc_wb97mv unpol_hyb_mgga_xc_wb97mv.
Definition f_lda_c_1d_csc : source := Source "lda_c_1d_csc" pol_lda_c_1d_csc unpol_lda_c_1d_csc.
Definition f_lda_c_1d_loos : source := Source "lda_c_1d_loos" pol_lda_c_1d_loos unpol_lda_c_1d_loos.
Definition f_lda_c_2d_amgb : source := Source "lda_c_2d_amgb" pol_lda_c_2d_amgb unpol_lda_c_2d_amgb.
Definition f_lda_c_2d_prm : source := Source "lda_c_2d_prm" pol_lda_c_2d_prm unpol_lda_c_2d_prm.
Definition f_lda_c_chachiyo : source := Source "lda_c_chachiyo" pol_lda_c_chachiyo unpol_lda_c_chachiyo.
Definition f_lda_c_chachiyo_mod : source := Source "lda_c_chachiyo_mod" pol_lda_c_chachiyo_mod unpol_lda_c_chachiyo_mod.
Definition f_lda_c_gk72 : source := Source "lda_c_gk72" pol_lda_c_gk72 unpol_lda_c_gk72.
Definition f_lda_c_gombas : source := Source "lda_c_gombas" pol_lda_c_gombas unpol_lda_c_gombas.
Definition f_lda_c_hl : source := Source "lda_c_hl" pol_lda_c_hl unpol_lda_c_hl.
Definition f_lda_c_lp96 : source := Source "lda_c_lp96" pol_lda_c_lp96 unpol_lda_c_lp96.
Definition f_lda_c_ml1 : source := Source "lda_c_ml1" pol_lda_c_ml1 unpol_lda_c_ml1.
Definition f_lda_c_pk09 : source := Source "lda_c_pk09" pol_lda_c_pk09 unpol_lda_c_pk09.
Definition f_lda_c_pmgb06 : source := Source "lda_c_pmgb06" pol_lda_c_pmgb06 unpol_lda_c_pmgb06.
Definition f_lda_c_pw : source := Source "lda_c_pw" pol_lda_c_pw unpol_lda_c_pw.
Definition f_lda_c_pz : source := Source "lda_c_pz" pol_lda_c_pz unpol_lda_c_pz.
Definition f_lda_c_rc04 : source := Source "lda_c_rc04" pol_lda_c_rc04 unpol_lda_c_rc04.
Definition f_lda_c_rpa : source := Source "lda_c_rpa" pol_lda_c_rpa unpol_lda_c_rpa.
Definition f_lda_c_vwn : source := Source "lda_c_vwn" pol_lda_c_vwn unpol_lda_c_vwn.
Definition f_lda_c_vwn_1 : source := Source "lda_c_vwn_1" pol_lda_c_vwn_1 unpol_lda_c_vwn_1.
Definition f_lda_c_vwn_2 : source := Source "lda_c_vwn_2" pol_lda_c_vwn_2 unpol_lda_c_vwn_2.
Definition f_lda_c_vwn_3 : source := Source "lda_c_vwn_3" pol_lda_c_vwn_3 unpol_lda_c_vwn_3.
Definition f_lda_c_vwn_4 : source := Source "lda_c_vwn_4" pol_lda_c_vwn_4 unpol_lda_c_vwn_4.
Definition f_lda_c_vwn_rpa : source := Source "lda_c_vwn_rpa" pol_lda_c_vwn_rpa unpol_lda_c_vwn_rpa.
Definition f_lda_c_w20 : source := Source "lda_c_w20" pol_lda_c_w20 unpol_lda_c_w20.
Definition f_lda_c_wigner : source := Source "lda_c_wigner" pol_lda_c_wigner unpol_lda_c_wigner.
Definition f_lda_k_gds08_worker : source := Source "lda_k_gds08_worker" pol_lda_k_gds08_worker unpol_lda_k_gds08_worker.
Definition f_lda_k_tf : source := Source "lda_k_tf" pol_lda_k_tf unpol_lda_k_tf.
Definition f_lda_k_zlp : source := Source "lda_k_zlp" pol_lda_k_zlp unpol_lda_k_zlp.
Definition f_lda_x : source := Source "lda_x" pol_lda_x unpol_lda_x.
Definition f_lda_x_1d_exponential : source := Source "lda_x_1d_exponential" pol_lda_x_1d_exponential unpol_lda_x_1d_exponential.
Definition f_lda_x_1d_soft : source := Source "lda_x_1d_soft" pol_lda_x_1d_soft unpol_lda_x_1d_soft.
Definition f_lda_x_2d : source := Source "lda_x_2d" pol_lda_x_2d unpol_lda_x_2d.
Definition f_lda_x_erf : source := Source "lda_x_erf" pol_lda_x_erf unpol_lda_x_erf.
Definition f_lda_x_rel : source := Source "lda_x_rel" pol_lda_x_rel unpol_lda_x_rel.
Definition f_lda_x_sloc : source := Source "lda_x_sloc" pol_lda_x_sloc unpol_lda_x_sloc.
Definition f_lda_x_yukawa : source := Source "lda_x_yukawa" pol_lda_x_yukawa unpol_lda_x_yukawa.
Definition f_lda_xc_1d_ehwlrg : source := Source "lda_xc_1d_ehwlrg" pol_lda_xc_1d_ehwlrg unpol_lda_xc_1d_ehwlrg.
Definition f_lda_xc_ksdt : source := Source "lda_xc_ksdt" pol_lda_xc_ksdt unpol_lda_xc_ksdt.
Definition f_lda_xc_teter93 : source := Source "lda_xc_teter93" pol_lda_xc_teter93 unpol_lda_xc_teter93.
Definition f_lda_xc_tih : source := Source "lda_xc_tih" pol_lda_xc_tih unpol_lda_xc_tih.
Definition f_lda_xc_zlp : source := Source "lda_xc_zlp" pol_lda_xc_zlp unpol_lda_xc_zlp.
Definition f_mgga_c_b88 : source := Source "mgga_c_b88" pol_mgga_c_b88 unpol_mgga_c_b88.
Definition f_mgga_c_b94 : source := Source "mgga_c_b94" pol_mgga_c_b94 unpol_mgga_c_b94.
Definition f_mgga_c_bc95 : source := Source "mgga_c_bc95" pol_mgga_c_bc95 unpol_mgga_c_bc95.
Definition f_mgga_c_cc : source := Source "mgga_c_cc" pol_mgga_c_cc unpol_mgga_c_cc.
Definition f_mgga_c_ccalda : source := Source "mgga_c_ccalda" pol_mgga_c_ccalda unpol_mgga_c_ccalda.
Definition f_mgga_c_cs : source := Source "mgga_c_cs" pol_mgga_c_cs unpol_mgga_c_cs.
Definition f_mgga_c_kcis : source := Source "mgga_c_kcis" pol_mgga_c_kcis unpol_mgga_c_kcis.
Definition f_mgga_c_kcisk : source := Source "mgga_c_kcisk" pol_mgga_c_kcisk unpol_mgga_c_kcisk.
Definition f_mgga_c_ltapw : source := Source "mgga_c_ltapw" pol_mgga_c_ltapw unpol_mgga_c_ltapw.
Definition f_mgga_c_m05 : source := Source "mgga_c_m05" pol_mgga_c_m05 unpol_mgga_c_m05.
Definition f_mgga_c_m06l : source := Source "mgga_c_m06l" pol_mgga_c_m06l unpol_mgga_c_m06l.
Definition f_mgga_c_m08 : source := Source "mgga_c_m08" pol_mgga_c_m08 unpol_mgga_c_m08.
Definition f_mgga_c_pkzb : source := Source "mgga_c_pkzb" pol_mgga_c_pkzb unpol_mgga_c_pkzb.
Definition f_mgga_c_r2scan : source := Source "mgga_c_r2scan" pol_mgga_c_r2scan unpol_mgga_c_r2scan.
Definition f_mgga_c_revscan : source := Source "mgga_c_revscan" pol_mgga_c_revscan unpol_mgga_c_revscan.
Definition f_mgga_c_revtpss : source := Source "mgga_c_revtpss" pol_mgga_c_revtpss unpol_mgga_c_revtpss.
Definition f_mgga_c_rmggac : source := Source "mgga_c_rmggac" pol_mgga_c_rmggac unpol_mgga_c_rmggac.
Definition f_mgga_c_rppscan : source := Source "mgga_c_rppscan" pol_mgga_c_rppscan unpol_mgga_c_rppscan.
Definition f_mgga_c_rregtm : source := Source "mgga_c_rregtm" pol_mgga_c_rregtm unpol_mgga_c_rregtm.
Definition f_mgga_c_rscan : source := Source "mgga_c_rscan" pol_mgga_c_rscan unpol_mgga_c_rscan.
Definition f_mgga_c_scan : source := Source "mgga_c_scan" pol_mgga_c_scan unpol_mgga_c_scan.
Definition f_mgga_c_tpss : source := Source "mgga_c_tpss" pol_mgga_c_tpss unpol_mgga_c_tpss.
Definition f_mgga_c_tpssloc : source := Source "mgga_c_tpssloc" pol_mgga_c_tpssloc unpol_mgga_c_tpssloc.
Definition f_mgga_c_vsxc : source := Source "mgga_c_vsxc" pol_mgga_c_vsxc unpol_mgga_c_vsxc.
Definition f_mgga_k_csk : source := Source "mgga_k_csk" pol_mgga_k_csk unpol_mgga_k_csk.
Definition f_mgga_k_csk_loc : source := Source "mgga_k_csk_loc" pol_mgga_k_csk_loc unpol_mgga_k_csk_loc.
Definition f_mgga_k_gea2 : source := Source "mgga_k_gea2" pol_mgga_k_gea2 unpol_mgga_k_gea2.
Definition f_mgga_k_gea4 : source := Source "mgga_k_gea4" pol_mgga_k_gea4 unpol_mgga_k_gea4.
Definition f_mgga_k_lk : source := Source "mgga_k_lk" pol_mgga_k_lk unpol_mgga_k_lk.
Definition f_mgga_k_pc07 : source := Source "mgga_k_pc07" pol_mgga_k_pc07 unpol_mgga_k_pc07.
Definition f_mgga_k_pgslb : source := Source "mgga_k_pgslb" pol_mgga_k_pgslb unpol_mgga_k_pgslb.
Definition f_mgga_k_rda : source := Source "mgga_k_rda" pol_mgga_k_rda unpol_mgga_k_rda.
Definition f_mgga_x_2d_js17 : source := Source "mgga_x_2d_js17" pol_mgga_x_2d_js17 unpol_mgga_x_2d_js17.
Definition f_mgga_x_2d_prhg07 : source := Source "mgga_x_2d_prhg07" pol_mgga_x_2d_prhg07 unpol_mgga_x_2d_prhg07.
Definition f_mgga_x_2d_prp10 : source := Source "mgga_x_2d_prp10" pol_mgga_x_2d_prp10 unpol_mgga_x_2d_prp10.
Definition f_mgga_x_br89 : source := Source "mgga_x_br89" pol_mgga_x_br89 unpol_mgga_x_br89.
Definition f_mgga_x_br89_explicit : source := Source "mgga_x_br89_explicit" pol_mgga_x_br89_explicit unpol_mgga_x_br89_explicit.
Definition f_mgga_x_edmgga : source := Source "mgga_x_edmgga" pol_mgga_x_edmgga unpol_mgga_x_edmgga.
Definition f_mgga_x_ft98 : source := Source "mgga_x_ft98" pol_mgga_x_ft98 unpol_mgga_x_ft98.
Definition f_mgga_x_gdme : source := Source "mgga_x_gdme" pol_mgga_x_gdme unpol_mgga_x_gdme.
Definition f_mgga_x_gvt4 : source := Source "mgga_x_gvt4" pol_mgga_x_gvt4 unpol_mgga_x_gvt4.
Definition f_mgga_x_gx : source := Source "mgga_x_gx" pol_mgga_x_gx unpol_mgga_x_gx.
Definition f_mgga_x_jk : source := Source "mgga_x_jk" pol_mgga_x_jk unpol_mgga_x_jk.
Definition f_mgga_x_lta : source := Source "mgga_x_lta" pol_mgga_x_lta unpol_mgga_x_lta.
Definition f_mgga_x_m06l : source := Source "mgga_x_m06l" pol_mgga_x_m06l unpol_mgga_x_m06l.
Definition f_mgga_x_m08 : source := Source "mgga_x_m08" pol_mgga_x_m08 unpol_mgga_x_m08.
Definition f_mgga_x_m11 : source := Source "mgga_x_m11" pol_mgga_x_m11 unpol_mgga_x_m11.
Definition f_mgga_x_m11_l : source := Source "mgga_x_m11_l" pol_mgga_x_m11_l unpol_mgga_x_m11_l.
Definition f_mgga_x_mbeef : source := Source "mgga_x_mbeef" pol_mgga_x_mbeef unpol_mgga_x_mbeef.
Definition f_mgga_x_mbeefvdw : source := Source "mgga_x_mbeefvdw" pol_mgga_x_mbeefvdw unpol_mgga_x_mbeefvdw.
Definition f_mgga_x_mbr : source := Source "mgga_x_mbr" pol_mgga_x_mbr unpol_mgga_x_mbr.
Definition f_mgga_x_mbrxc_bg : source := Source "mgga_x_mbrxc_bg" pol_mgga_x_mbrxc_bg unpol_mgga_x_mbrxc_bg.
Definition f_mgga_x_mbrxh_bg : source := Source "mgga_x_mbrxh_bg" pol_mgga_x_mbrxh_bg unpol_mgga_x_mbrxh_bg.
Definition f_mgga_x_mcml : source := Source "mgga_x_mcml" pol_mgga_x_mcml unpol_mgga_x_mcml.
Definition f_mgga_x_mggac : source := Source "mgga_x_mggac" pol_mgga_x_mggac unpol_mgga_x_mggac.
Definition f_mgga_x_mn12 : source := Source "mgga_x_mn12" pol_mgga_x_mn12 unpol_mgga_x_mn12.
Definition f_mgga_x_ms : source := Source "mgga_x_ms" pol_mgga_x_ms unpol_mgga_x_ms.
Definition f_mgga_x_msb : source := Source "mgga_x_msb" pol_mgga_x_msb unpol_mgga_x_msb.
Definition f_mgga_x_mvs : source := Source "mgga_x_mvs" pol_mgga_x_mvs unpol_mgga_x_mvs.
Definition f_mgga_x_mvsb : source := Source "mgga_x_mvsb" pol_mgga_x_mvsb unpol_mgga_x_mvsb.
Definition f_mgga_x_pbe_gx : source := Source "mgga_x_pbe_gx" pol_mgga_x_pbe_gx unpol_mgga_x_pbe_gx.
Definition f_mgga_x_pkzb : source := Source "mgga_x_pkzb" pol_mgga_x_pkzb unpol_mgga_x_pkzb.
Definition f_mgga_x_r2scan : source := Source "mgga_x_r2scan" pol_mgga_x_r2scan unpol_mgga_x_r2scan.
Definition f_mgga_x_r4scan : source := Source "mgga_x_r4scan" pol_mgga_x_r4scan unpol_mgga_x_r4scan.
Definition f_mgga_x_regtm : source := Source "mgga_x_regtm" pol_mgga_x_regtm unpol_mgga_x_regtm.
Definition f_mgga_x_regtpss : source := Source "mgga_x_regtpss" pol_mgga_x_regtpss unpol_mgga_x_regtpss.
Definition f_mgga_x_revtm : source := Source "mgga_x_revtm" pol_mgga_x_revtm unpol_mgga_x_revtm.
Definition f_mgga_x_rlda : source := Source "mgga_x_rlda" pol_mgga_x_rlda unpol_mgga_x_rlda.
Definition f_mgga_x_rppscan : source := Source "mgga_x_rppscan" pol_mgga_x_rppscan unpol_mgga_x_rppscan.
Definition f_mgga_x_rscan : source := Source "mgga_x_rscan" pol_mgga_x_rscan unpol_mgga_x_rscan.
Definition f_mgga_x_rtpss : source := Source "mgga_x_rtpss" pol_mgga_x_rtpss unpol_mgga_x_rtpss.
Definition f_mgga_x_sa_tpss : source := Source "mgga_x_sa_tpss" pol_mgga_x_sa_tpss unpol_mgga_x_sa_tpss.
Definition f_mgga_x_scan : source := Source "mgga_x_scan" pol_mgga_x_scan unpol_mgga_x_scan.
Definition f_mgga_x_task : source := Source "mgga_x_task" pol_mgga_x_task unpol_mgga_x_task.
Definition f_mgga_x_tau_hcth : source := Source "mgga_x_tau_hcth" pol_mgga_x_tau_hcth unpol_mgga_x_tau_hcth.
Definition f_mgga_x_tb09 : source := Source "mgga_x_tb09" pol_mgga_x_tb09 unpol_mgga_x_tb09.
Definition f_mgga_x_th : source := Source "mgga_x_th" pol_mgga_x_th unpol_mgga_x_th.
Definition f_mgga_x_tm : source := Source "mgga_x_tm" pol_mgga_x_tm unpol_mgga_x_tm.
Definition f_mgga_x_tpss : source := Source "mgga_x_tpss" pol_mgga_x_tpss unpol_mgga_x_tpss.
Definition f_mgga_x_vcml : source := Source "mgga_x_vcml" pol_mgga_x_vcml unpol_mgga_x_vcml.
Definition f_mgga_x_vt84 : source := Source "mgga_x_vt84" pol_mgga_x_vt84 unpol_mgga_x_vt84.
Definition f_mgga_xc_b97mv : source := Source "mgga_xc_b97mv" pol_mgga_xc_b97mv unpol_mgga_xc_b97mv.
Definition f_mgga_xc_b98 : source := Source "mgga_xc_b98" pol_mgga_xc_b98 unpol_mgga_xc_b98.
Definition f_mgga_xc_cc06 : source := Source "mgga_xc_cc06" pol_mgga_xc_cc06 unpol_mgga_xc_cc06.
Definition f_mgga_xc_lp90 : source := Source "mgga_xc_lp90" pol_mgga_xc_lp90 unpol_mgga_xc_lp90.
Definition f_mgga_xc_zlp : source := Source "mgga_xc_zlp" pol_mgga_xc_zlp unpol_mgga_xc_zlp.

Definition all_sources : list source := [
  f_gga_c_acgga;
  f_gga_c_acggap;
  f_gga_c_am05;
  f_gga_c_bmk;
  f_gga_c_ccdf;
  f_gga_c_chachiyo;
  f_gga_c_cs1;
  f_gga_c_ft97;
  f_gga_c_gapc;
  f_gga_c_gaploc;
  f_gga_c_hcth_a;
  f_gga_c_lm;
  f_gga_c_lyp;
  f_gga_c_lypr;
  f_gga_c_op_b88;
  f_gga_c_op_g96;
  f_gga_c_op_pbe;
  f_gga_c_op_pw91;
  f_gga_c_op_xalpha;
  f_gga_c_optc;
  f_gga_c_p86;
  f_gga_c_p86vwn;
  f_gga_c_pbe;
  f_gga_c_pbe_vwn;
  f_gga_c_pbeloc;
  f_gga_c_pw91;
  f_gga_c_q2d;
  f_gga_c_regtpss;
  f_gga_c_revtca;
  f_gga_c_scan_e0;
  f_gga_c_sg4;
  f_gga_c_sogga11;
  f_gga_c_tca;
  f_gga_c_w94;
  f_gga_c_wi;
  f_gga_c_wl;
  f_gga_c_zpbeint;
  f_gga_c_zvpbeint;
  f_gga_c_zvpbeloc;
  f_gga_k_apbe;
  f_gga_k_apbeint;
  f_gga_k_dk;
  f_gga_k_exp4;
  f_gga_k_lc94;
  f_gga_k_lgap;
  f_gga_k_lgap_ge;
  f_gga_k_lkt;
  f_gga_k_llp;
  f_gga_k_meyer;
  f_gga_k_mpbe;
  f_gga_k_ol1;
  f_gga_k_ol2;
  f_gga_k_pearson;
  f_gga_k_pg;
  f_gga_k_pw86;
  f_gga_k_rational_p;
  f_gga_k_tflw;
  f_gga_k_thakkar;
  f_gga_k_vt84f;
  f_gga_x_2d_b86;
  f_gga_x_2d_b86_mgc;
  f_gga_x_2d_b88;
  f_gga_x_2d_pbe;
  f_gga_x_airy;
  f_gga_x_ak13;
  f_gga_x_am05;
  f_gga_x_b86;
  f_gga_x_b88;
  f_gga_x_bayesian;
  f_gga_x_beefvdw;
  f_gga_x_bpccac;
  f_gga_x_c09x;
  f_gga_x_cap;
  f_gga_x_chachiyo;
  f_gga_x_dk87;
  f_gga_x_ev93;
  f_gga_x_fd_lb94;
  f_gga_x_ft97;
  f_gga_x_g96;
  f_gga_x_gg99;
  f_gga_x_hcth_a;
  f_gga_x_herman;
  f_gga_x_hjs;
  f_gga_x_hjs_b88_v2;
  f_gga_x_htbs;
  f_gga_x_ityh;
  f_gga_x_ityh_optx;
  f_gga_x_ityh_pbe;
  f_gga_x_kt;
  f_gga_x_lag;
  f_gga_x_lb;
  f_gga_x_lg93;
  f_gga_x_lspbe;
  f_gga_x_lsrpbe;
  f_gga_x_lv_rpw86;
  f_gga_x_mpbe;
  f_gga_x_n12;
  f_gga_x_ncap;
  f_gga_x_ol2;
  f_gga_x_optx;
  f_gga_x_pbe;
  f_gga_x_pbea;
  f_gga_x_pbeint;
  f_gga_x_pbepow;
  f_gga_x_pbetrans;
  f_gga_x_pw86;
  f_gga_x_pw91;
  f_gga_x_q1d;
  f_gga_x_q2d;
  f_gga_x_rge2;
  f_gga_x_rpbe;
  f_gga_x_s12;
  f_gga_x_sfat;
  f_gga_x_sfat_pbe;
  f_gga_x_sg4;
  f_gga_x_sogga11;
  f_gga_x_ssb_sw;
  f_gga_x_vmt;
  f_gga_x_vmt84;
  f_gga_x_wc;
  f_gga_x_wpbeh;
  f_gga_xc_b97;
  f_gga_xc_th1;
  f_gga_xc_th2;
  f_gga_xc_th3;
  f_hyb_gga_x_cam_s12;
  f_hyb_gga_xc_case21;
  f_hyb_gga_xc_wb97;
  f_hyb_lda_xc_bn05;
  f_hyb_mgga_x_dldf;
  f_hyb_mgga_x_js18;
  f_hyb_mgga_x_m05;
  f_hyb_mgga_x_pjs18;
  f_hyb_mgga_xc_wb97mv;
  f_lda_c_1d_csc;
  f_lda_c_1d_loos;
  f_lda_c_2d_amgb;
  f_lda_c_2d_prm;
  f_lda_c_chachiyo;
  f_lda_c_chachiyo_mod;
  f_lda_c_gk72;
  f_lda_c_gombas;
  f_lda_c_hl;
  f_lda_c_lp96;
  f_lda_c_ml1;
  f_lda_c_pk09;
  f_lda_c_pmgb06;
  f_lda_c_pw;
  f_lda_c_pz;
  f_lda_c_rc04;
  f_lda_c_rpa;
  f_lda_c_vwn;
  f_lda_c_vwn_1;
  f_lda_c_vwn_2;
  f_lda_c_vwn_3;
  f_lda_c_vwn_4;
  f_lda_c_vwn_rpa;
  f_lda_c_w20;
  f_lda_c_wigner;
  f_lda_k_gds08_worker;
  f_lda_k_tf;
  f_lda_k_zlp;
  f_lda_x;
  f_lda_x_1d_exponential;
  f_lda_x_1d_soft;
  f_lda_x_2d;
  f_lda_x_erf;
  f_lda_x_rel;
  f_lda_x_sloc;
  f_lda_x_yukawa;
  f_lda_xc_1d_ehwlrg;
  f_lda_xc_ksdt;
  f_lda_xc_teter93;
  f_lda_xc_tih;
  f_lda_xc_zlp;
  f_mgga_c_b88;
  f_mgga_c_b94;
  f_mgga_c_bc95;
  f_mgga_c_cc;
  f_mgga_c_ccalda;
  f_mgga_c_cs;
  f_mgga_c_kcis;
  f_mgga_c_kcisk;
  f_mgga_c_ltapw;
  f_mgga_c_m05;
  f_mgga_c_m06l;
  f_mgga_c_m08;
  f_mgga_c_pkzb;
  f_mgga_c_r2scan;
  f_mgga_c_revscan;
  f_mgga_c_revtpss;
  f_mgga_c_rmggac;
  f_mgga_c_rppscan;
  f_mgga_c_rregtm;
  f_mgga_c_rscan;
  f_mgga_c_scan;
  f_mgga_c_tpss;
  f_mgga_c_tpssloc;
  f_mgga_c_vsxc;
  f_mgga_k_csk;
  f_mgga_k_csk_loc;
  f_mgga_k_gea2;
  f_mgga_k_gea4;
  f_mgga_k_lk;
  f_mgga_k_pc07;
  f_mgga_k_pgslb;
  f_mgga_k_rda;
  f_mgga_x_2d_js17;
  f_mgga_x_2d_prhg07;
  f_mgga_x_2d_prp10;
  f_mgga_x_br89;
  f_mgga_x_br89_explicit;
  f_mgga_x_edmgga;
  f_mgga_x_ft98;
  f_mgga_x_gdme;
  f_mgga_x_gvt4;
  f_mgga_x_gx;
  f_mgga_x_jk;
  f_mgga_x_lta;
  f_mgga_x_m06l;
  f_mgga_x_m08;
  f_mgga_x_m11;
  f_mgga_x_m11_l;
  f_mgga_x_mbeef;
  f_mgga_x_mbeefvdw;
  f_mgga_x_mbr;
  f_mgga_x_mbrxc_bg;
  f_mgga_x_mbrxh_bg;
  f_mgga_x_mcml;
  f_mgga_x_mggac;
  f_mgga_x_mn12;
  f_mgga_x_ms;
  f_mgga_x_msb;
  f_mgga_x_mvs;
  f_mgga_x_mvsb;
  f_mgga_x_pbe_gx;
  f_mgga_x_pkzb;
  f_mgga_x_r2scan;
  f_mgga_x_r4scan;
  f_mgga_x_regtm;
  f_mgga_x_regtpss;
  f_mgga_x_revtm;
  f_mgga_x_rlda;
  f_mgga_x_rppscan;
  f_mgga_x_rscan;
  f_mgga_x_rtpss;
  f_mgga_x_sa_tpss;
  f_mgga_x_scan;
  f_mgga_x_task;
  f_mgga_x_tau_hcth;
  f_mgga_x_tb09;
  f_mgga_x_th;
  f_mgga_x_tm;
  f_mgga_x_tpss;
  f_mgga_x_vcml;
  f_mgga_x_vt84;
  f_mgga_xc_b97mv;
  f_mgga_xc_b98;
  f_mgga_xc_cc06;
  f_mgga_xc_lp90;
  f_mgga_xc_zlp].
