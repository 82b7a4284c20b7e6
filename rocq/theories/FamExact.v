(** Definedness, sign and the strengthened statements of Exact.v for whole lists of
    functionals. Written by tools/gen_domains.py. *)
From Coq Require Import List QArith NArith.
From Verif Require Import Bytes Syntax Parser PostProcess Src Ast Semantics Families Interval Absint Defined Exact Domains Inputs Library Fam.
From Verif Require Import FamDefP FamDefU FamNegP FamNegU FamLib FamLibN.
Import ListNotations.

Definition srcd (p : compiled * domain) : source * domain := (c_src (fst p), snd p).
Lemma Forall_srcd (P : domain -> source -> Prop) l :
  Forall (fun p => P (snd p) (c_src (fst p))) l -> Forall (fun p => P (snd p) (fst p)) (map srcd l).
Proof. induction 1; constructor; assumption. Qed.

Definition defined_pol_functionals : list (source * domain) := [
  (f_gga_c_acgga, d_gga_c_acgga); (f_gga_c_acggap, d_gga_c_acggap); (f_gga_c_am05, d_gga_c_am05);
  (f_gga_c_bmk, d_gga_c_bmk); (f_gga_c_ccdf, d_gga_c_ccdf); (f_gga_c_cs1, d_gga_c_cs1);
  (f_gga_c_ft97, d_gga_c_ft97); (f_gga_c_hcth_a, d_gga_c_hcth_a); (f_gga_c_lm, d_gga_c_lm);
  (f_gga_c_lyp, d_gga_c_lyp); (f_gga_c_lypr, d_gga_c_lypr); (f_gga_c_op_b88, d_gga_c_op_b88);
  (f_gga_c_op_g96, d_gga_c_op_g96); (f_gga_c_op_pbe, d_gga_c_op_pbe);
  (f_gga_c_op_xalpha, d_gga_c_op_xalpha); (f_gga_c_optc, d_gga_c_optc);
  (f_gga_c_p86, d_gga_c_p86); (f_gga_c_p86vwn, d_gga_c_p86vwn); (f_gga_c_pbe, d_gga_c_pbe);
  (f_gga_c_pbeloc, d_gga_c_pbeloc); (f_gga_c_pw91, d_gga_c_pw91);
  (f_gga_c_regtpss, d_gga_c_regtpss); (f_gga_c_revtca, d_gga_c_revtca);
  (f_gga_c_scan_e0, d_gga_c_scan_e0); (f_gga_c_sg4, d_gga_c_sg4);
  (f_gga_c_sogga11, d_gga_c_sogga11); (f_gga_c_tca, d_gga_c_tca); (f_gga_c_w94, d_gga_c_w94);
  (f_gga_c_wi, d_gga_c_wi); (f_gga_c_zpbeint, d_gga_c_zpbeint);
  (f_gga_c_zvpbeint, d_gga_c_zvpbeint); (f_gga_c_zvpbeloc, d_gga_c_zvpbeloc);
  (f_gga_k_apbe, d_gga_k_apbe); (f_gga_k_dk, d_gga_k_dk); (f_gga_k_exp4, d_gga_k_exp4);
  (f_gga_k_lc94, d_gga_k_lc94); (f_gga_k_lgap, d_gga_k_lgap); (f_gga_k_lgap_ge, d_gga_k_lgap_ge);
  (f_gga_k_lkt, d_gga_k_lkt); (f_gga_k_llp, d_gga_k_llp); (f_gga_k_mpbe, d_gga_k_mpbe);
  (f_gga_k_ol1, d_gga_k_ol1); (f_gga_k_ol2, d_gga_k_ol2); (f_gga_k_pearson, d_gga_k_pearson);
  (f_gga_k_pg, d_gga_k_pg); (f_gga_k_pw86, d_gga_k_pw86);
  (f_gga_k_rational_p, d_gga_k_rational_p); (f_gga_k_tflw, d_gga_k_tflw);
  (f_gga_k_thakkar, d_gga_k_thakkar); (f_gga_k_vt84f, d_gga_k_vt84f);
  (f_gga_x_2d_b86, d_gga_x_2d_b86); (f_gga_x_2d_b86_mgc, d_gga_x_2d_b86_mgc);
  (f_gga_x_2d_b88, d_gga_x_2d_b88); (f_gga_x_2d_pbe, d_gga_x_2d_pbe);
  (f_gga_x_airy, d_gga_x_airy); (f_gga_x_ak13, d_gga_x_ak13); (f_gga_x_am05, d_gga_x_am05);
  (f_gga_x_b86, d_gga_x_b86); (f_gga_x_b88, d_gga_x_b88); (f_gga_x_bayesian, d_gga_x_bayesian);
  (f_gga_x_beefvdw, d_gga_x_beefvdw); (f_gga_x_bpccac, d_gga_x_bpccac);
  (f_gga_x_c09x, d_gga_x_c09x); (f_gga_x_cap, d_gga_x_cap); (f_gga_x_chachiyo, d_gga_x_chachiyo);
  (f_gga_x_dk87, d_gga_x_dk87); (f_gga_x_ev93, d_gga_x_ev93); (f_gga_x_ft97, d_gga_x_ft97);
  (f_gga_x_g96, d_gga_x_g96); (f_gga_x_hcth_a, d_gga_x_hcth_a); (f_gga_x_herman, d_gga_x_herman);
  (f_gga_x_hjs, d_gga_x_hjs); (f_gga_x_htbs, d_gga_x_htbs); (f_gga_x_ityh, d_gga_x_ityh);
  (f_gga_x_ityh_optx, d_gga_x_ityh_optx); (f_gga_x_ityh_pbe, d_gga_x_ityh_pbe);
  (f_gga_x_kt, d_gga_x_kt); (f_gga_x_lag, d_gga_x_lag); (f_gga_x_lg93, d_gga_x_lg93);
  (f_gga_x_lspbe, d_gga_x_lspbe); (f_gga_x_lsrpbe, d_gga_x_lsrpbe);
  (f_gga_x_lv_rpw86, d_gga_x_lv_rpw86); (f_gga_x_mpbe, d_gga_x_mpbe); (f_gga_x_n12, d_gga_x_n12);
  (f_gga_x_ncap, d_gga_x_ncap); (f_gga_x_ol2, d_gga_x_ol2); (f_gga_x_optx, d_gga_x_optx);
  (f_gga_x_pbe, d_gga_x_pbe); (f_gga_x_pbea, d_gga_x_pbea); (f_gga_x_pbepow, d_gga_x_pbepow);
  (f_gga_x_pbetrans, d_gga_x_pbetrans); (f_gga_x_pw86, d_gga_x_pw86);
  (f_gga_x_pw91, d_gga_x_pw91); (f_gga_x_q1d, d_gga_x_q1d); (f_gga_x_q2d, d_gga_x_q2d);
  (f_gga_x_rge2, d_gga_x_rge2); (f_gga_x_rpbe, d_gga_x_rpbe); (f_gga_x_s12, d_gga_x_s12);
  (f_gga_x_sfat, d_gga_x_sfat); (f_gga_x_sfat_pbe, d_gga_x_sfat_pbe);
  (f_gga_x_sogga11, d_gga_x_sogga11); (f_gga_x_ssb_sw, d_gga_x_ssb_sw);
  (f_gga_x_vmt, d_gga_x_vmt); (f_gga_x_vmt84, d_gga_x_vmt84); (f_gga_x_wc, d_gga_x_wc);
  (f_gga_x_wpbeh, d_gga_x_wpbeh); (f_gga_xc_b97, d_gga_xc_b97); (f_gga_xc_th1, d_gga_xc_th1);
  (f_gga_xc_th2, d_gga_xc_th2); (f_gga_xc_th3, d_gga_xc_th3);
  (f_hyb_gga_x_cam_s12, d_hyb_gga_x_cam_s12); (f_hyb_gga_xc_wb97, d_hyb_gga_xc_wb97);
  (f_hyb_mgga_x_dldf, d_hyb_mgga_x_dldf); (f_hyb_mgga_x_m05, d_hyb_mgga_x_m05);
  (f_hyb_mgga_x_pjs18, d_hyb_mgga_x_pjs18); (f_hyb_mgga_xc_wb97mv, d_hyb_mgga_xc_wb97mv);
  (f_lda_c_1d_csc, d_lda_c_1d_csc); (f_lda_c_1d_loos, d_lda_c_1d_loos);
  (f_lda_c_2d_prm, d_lda_c_2d_prm); (f_lda_c_chachiyo, d_lda_c_chachiyo);
  (f_lda_c_chachiyo_mod, d_lda_c_chachiyo_mod); (f_lda_c_gk72, d_lda_c_gk72);
  (f_lda_c_gombas, d_lda_c_gombas); (f_lda_c_hl, d_lda_c_hl); (f_lda_c_lp96, d_lda_c_lp96);
  (f_lda_c_ml1, d_lda_c_ml1); (f_lda_c_pmgb06, d_lda_c_pmgb06); (f_lda_c_pw, d_lda_c_pw);
  (f_lda_c_pz, d_lda_c_pz); (f_lda_c_rc04, d_lda_c_rc04); (f_lda_c_rpa, d_lda_c_rpa);
  (f_lda_c_vwn, d_lda_c_vwn); (f_lda_c_vwn_1, d_lda_c_vwn_1); (f_lda_c_vwn_2, d_lda_c_vwn_2);
  (f_lda_c_vwn_4, d_lda_c_vwn_4); (f_lda_c_vwn_rpa, d_lda_c_vwn_rpa);
  (f_lda_c_wigner, d_lda_c_wigner); (f_lda_k_gds08_worker, d_lda_k_gds08_worker);
  (f_lda_k_tf, d_lda_k_tf); (f_lda_k_zlp, d_lda_k_zlp); (f_lda_x, d_lda_x);
  (f_lda_x_2d, d_lda_x_2d); (f_lda_x_erf, d_lda_x_erf); (f_lda_x_rel, d_lda_x_rel);
  (f_lda_x_sloc, d_lda_x_sloc); (f_lda_x_yukawa, d_lda_x_yukawa);
  (f_lda_xc_1d_ehwlrg, d_lda_xc_1d_ehwlrg); (f_lda_xc_teter93, d_lda_xc_teter93);
  (f_lda_xc_tih, d_lda_xc_tih); (f_lda_xc_zlp, d_lda_xc_zlp); (f_mgga_c_b88, d_mgga_c_b88);
  (f_mgga_c_bc95, d_mgga_c_bc95); (f_mgga_c_cc, d_mgga_c_cc); (f_mgga_c_cs, d_mgga_c_cs);
  (f_mgga_c_ltapw, d_mgga_c_ltapw); (f_mgga_c_m05, d_mgga_c_m05); (f_mgga_c_m08, d_mgga_c_m08);
  (f_mgga_c_pkzb, d_mgga_c_pkzb); (f_mgga_c_rppscan, d_mgga_c_rppscan);
  (f_mgga_c_rregtm, d_mgga_c_rregtm); (f_mgga_c_rscan, d_mgga_c_rscan);
  (f_mgga_c_scan, d_mgga_c_scan); (f_mgga_k_gea2, d_mgga_k_gea2); (f_mgga_k_gea4, d_mgga_k_gea4);
  (f_mgga_k_pgslb, d_mgga_k_pgslb); (f_mgga_x_2d_js17, d_mgga_x_2d_js17);
  (f_mgga_x_gdme, d_mgga_x_gdme); (f_mgga_x_gvt4, d_mgga_x_gvt4); (f_mgga_x_lta, d_mgga_x_lta);
  (f_mgga_x_m06l, d_mgga_x_m06l); (f_mgga_x_m08, d_mgga_x_m08); (f_mgga_x_m11, d_mgga_x_m11);
  (f_mgga_x_m11_l, d_mgga_x_m11_l); (f_mgga_x_mbeef, d_mgga_x_mbeef);
  (f_mgga_x_mbeefvdw, d_mgga_x_mbeefvdw); (f_mgga_x_mcml, d_mgga_x_mcml);
  (f_mgga_x_mn12, d_mgga_x_mn12); (f_mgga_x_mvs, d_mgga_x_mvs);
  (f_mgga_x_tau_hcth, d_mgga_x_tau_hcth); (f_mgga_x_th, d_mgga_x_th);
  (f_mgga_x_vcml, d_mgga_x_vcml); (f_mgga_xc_b97mv, d_mgga_xc_b97mv);
  (f_mgga_xc_b98, d_mgga_xc_b98); (f_mgga_xc_lp90, d_mgga_xc_lp90); (f_mgga_xc_zlp, d_mgga_xc_zlp)].
Lemma defined_pol_functionals_holds : Forall (fun p => defined_pol (snd p) (fst p)) defined_pol_functionals.
Proof.
  change defined_pol_functionals with (map srcd (defp_list1)). apply Forall_srcd. exact defp_all1.
Qed.

Definition defined_unpol_functionals : list (source * domain) := [
  (f_gga_c_acgga, d_gga_c_acgga); (f_gga_c_acggap, d_gga_c_acggap); (f_gga_c_am05, d_gga_c_am05);
  (f_gga_c_bmk, d_gga_c_bmk); (f_gga_c_ccdf, d_gga_c_ccdf); (f_gga_c_chachiyo, d_gga_c_chachiyo);
  (f_gga_c_cs1, d_gga_c_cs1); (f_gga_c_ft97, d_gga_c_ft97); (f_gga_c_hcth_a, d_gga_c_hcth_a);
  (f_gga_c_lm, d_gga_c_lm); (f_gga_c_lyp, d_gga_c_lyp); (f_gga_c_lypr, d_gga_c_lypr);
  (f_gga_c_op_b88, d_gga_c_op_b88); (f_gga_c_op_g96, d_gga_c_op_g96);
  (f_gga_c_op_pbe, d_gga_c_op_pbe); (f_gga_c_op_xalpha, d_gga_c_op_xalpha);
  (f_gga_c_optc, d_gga_c_optc); (f_gga_c_p86, d_gga_c_p86); (f_gga_c_p86vwn, d_gga_c_p86vwn);
  (f_gga_c_pbe, d_gga_c_pbe); (f_gga_c_pbeloc, d_gga_c_pbeloc); (f_gga_c_pw91, d_gga_c_pw91);
  (f_gga_c_regtpss, d_gga_c_regtpss); (f_gga_c_revtca, d_gga_c_revtca);
  (f_gga_c_scan_e0, d_gga_c_scan_e0); (f_gga_c_sg4, d_gga_c_sg4);
  (f_gga_c_sogga11, d_gga_c_sogga11); (f_gga_c_tca, d_gga_c_tca); (f_gga_c_w94, d_gga_c_w94);
  (f_gga_c_wi, d_gga_c_wi); (f_gga_c_wl, d_gga_c_wl); (f_gga_c_zpbeint, d_gga_c_zpbeint);
  (f_gga_c_zvpbeint, d_gga_c_zvpbeint); (f_gga_c_zvpbeloc, d_gga_c_zvpbeloc);
  (f_gga_k_apbe, d_gga_k_apbe); (f_gga_k_dk, d_gga_k_dk); (f_gga_k_exp4, d_gga_k_exp4);
  (f_gga_k_lc94, d_gga_k_lc94); (f_gga_k_lgap, d_gga_k_lgap); (f_gga_k_lgap_ge, d_gga_k_lgap_ge);
  (f_gga_k_lkt, d_gga_k_lkt); (f_gga_k_llp, d_gga_k_llp); (f_gga_k_mpbe, d_gga_k_mpbe);
  (f_gga_k_ol1, d_gga_k_ol1); (f_gga_k_ol2, d_gga_k_ol2); (f_gga_k_pearson, d_gga_k_pearson);
  (f_gga_k_pg, d_gga_k_pg); (f_gga_k_pw86, d_gga_k_pw86);
  (f_gga_k_rational_p, d_gga_k_rational_p); (f_gga_k_tflw, d_gga_k_tflw);
  (f_gga_k_thakkar, d_gga_k_thakkar); (f_gga_k_vt84f, d_gga_k_vt84f);
  (f_gga_x_2d_b86, d_gga_x_2d_b86); (f_gga_x_2d_b86_mgc, d_gga_x_2d_b86_mgc);
  (f_gga_x_2d_b88, d_gga_x_2d_b88); (f_gga_x_2d_pbe, d_gga_x_2d_pbe);
  (f_gga_x_airy, d_gga_x_airy); (f_gga_x_ak13, d_gga_x_ak13); (f_gga_x_am05, d_gga_x_am05);
  (f_gga_x_b86, d_gga_x_b86); (f_gga_x_b88, d_gga_x_b88); (f_gga_x_bayesian, d_gga_x_bayesian);
  (f_gga_x_beefvdw, d_gga_x_beefvdw); (f_gga_x_bpccac, d_gga_x_bpccac);
  (f_gga_x_c09x, d_gga_x_c09x); (f_gga_x_cap, d_gga_x_cap); (f_gga_x_chachiyo, d_gga_x_chachiyo);
  (f_gga_x_dk87, d_gga_x_dk87); (f_gga_x_ev93, d_gga_x_ev93); (f_gga_x_ft97, d_gga_x_ft97);
  (f_gga_x_g96, d_gga_x_g96); (f_gga_x_hcth_a, d_gga_x_hcth_a); (f_gga_x_herman, d_gga_x_herman);
  (f_gga_x_hjs, d_gga_x_hjs); (f_gga_x_htbs, d_gga_x_htbs); (f_gga_x_ityh, d_gga_x_ityh);
  (f_gga_x_ityh_optx, d_gga_x_ityh_optx); (f_gga_x_ityh_pbe, d_gga_x_ityh_pbe);
  (f_gga_x_kt, d_gga_x_kt); (f_gga_x_lag, d_gga_x_lag); (f_gga_x_lg93, d_gga_x_lg93);
  (f_gga_x_lspbe, d_gga_x_lspbe); (f_gga_x_lsrpbe, d_gga_x_lsrpbe);
  (f_gga_x_lv_rpw86, d_gga_x_lv_rpw86); (f_gga_x_mpbe, d_gga_x_mpbe); (f_gga_x_n12, d_gga_x_n12);
  (f_gga_x_ncap, d_gga_x_ncap); (f_gga_x_ol2, d_gga_x_ol2); (f_gga_x_optx, d_gga_x_optx);
  (f_gga_x_pbe, d_gga_x_pbe); (f_gga_x_pbea, d_gga_x_pbea); (f_gga_x_pbepow, d_gga_x_pbepow);
  (f_gga_x_pbetrans, d_gga_x_pbetrans); (f_gga_x_pw86, d_gga_x_pw86);
  (f_gga_x_pw91, d_gga_x_pw91); (f_gga_x_q1d, d_gga_x_q1d); (f_gga_x_q2d, d_gga_x_q2d);
  (f_gga_x_rge2, d_gga_x_rge2); (f_gga_x_rpbe, d_gga_x_rpbe); (f_gga_x_s12, d_gga_x_s12);
  (f_gga_x_sfat, d_gga_x_sfat); (f_gga_x_sfat_pbe, d_gga_x_sfat_pbe);
  (f_gga_x_sogga11, d_gga_x_sogga11); (f_gga_x_ssb_sw, d_gga_x_ssb_sw);
  (f_gga_x_vmt, d_gga_x_vmt); (f_gga_x_vmt84, d_gga_x_vmt84); (f_gga_x_wc, d_gga_x_wc);
  (f_gga_x_wpbeh, d_gga_x_wpbeh); (f_gga_xc_b97, d_gga_xc_b97); (f_gga_xc_th1, d_gga_xc_th1);
  (f_gga_xc_th2, d_gga_xc_th2); (f_gga_xc_th3, d_gga_xc_th3);
  (f_hyb_gga_x_cam_s12, d_hyb_gga_x_cam_s12); (f_hyb_gga_xc_wb97, d_hyb_gga_xc_wb97);
  (f_hyb_mgga_x_dldf, d_hyb_mgga_x_dldf); (f_hyb_mgga_x_m05, d_hyb_mgga_x_m05);
  (f_hyb_mgga_x_pjs18, d_hyb_mgga_x_pjs18); (f_hyb_mgga_xc_wb97mv, d_hyb_mgga_xc_wb97mv);
  (f_lda_c_1d_csc, d_lda_c_1d_csc); (f_lda_c_1d_loos, d_lda_c_1d_loos);
  (f_lda_c_2d_prm, d_lda_c_2d_prm); (f_lda_c_chachiyo, d_lda_c_chachiyo);
  (f_lda_c_chachiyo_mod, d_lda_c_chachiyo_mod); (f_lda_c_gk72, d_lda_c_gk72);
  (f_lda_c_gombas, d_lda_c_gombas); (f_lda_c_hl, d_lda_c_hl); (f_lda_c_lp96, d_lda_c_lp96);
  (f_lda_c_ml1, d_lda_c_ml1); (f_lda_c_pmgb06, d_lda_c_pmgb06); (f_lda_c_pw, d_lda_c_pw);
  (f_lda_c_pz, d_lda_c_pz); (f_lda_c_rc04, d_lda_c_rc04); (f_lda_c_rpa, d_lda_c_rpa);
  (f_lda_c_vwn, d_lda_c_vwn); (f_lda_c_vwn_1, d_lda_c_vwn_1); (f_lda_c_vwn_2, d_lda_c_vwn_2);
  (f_lda_c_vwn_4, d_lda_c_vwn_4); (f_lda_c_vwn_rpa, d_lda_c_vwn_rpa);
  (f_lda_c_wigner, d_lda_c_wigner); (f_lda_k_gds08_worker, d_lda_k_gds08_worker);
  (f_lda_k_tf, d_lda_k_tf); (f_lda_k_zlp, d_lda_k_zlp); (f_lda_x, d_lda_x);
  (f_lda_x_2d, d_lda_x_2d); (f_lda_x_erf, d_lda_x_erf); (f_lda_x_rel, d_lda_x_rel);
  (f_lda_x_sloc, d_lda_x_sloc); (f_lda_x_yukawa, d_lda_x_yukawa);
  (f_lda_xc_1d_ehwlrg, d_lda_xc_1d_ehwlrg); (f_lda_xc_teter93, d_lda_xc_teter93);
  (f_lda_xc_tih, d_lda_xc_tih); (f_lda_xc_zlp, d_lda_xc_zlp); (f_mgga_c_b88, d_mgga_c_b88);
  (f_mgga_c_bc95, d_mgga_c_bc95); (f_mgga_c_cc, d_mgga_c_cc); (f_mgga_c_cs, d_mgga_c_cs);
  (f_mgga_c_ltapw, d_mgga_c_ltapw); (f_mgga_c_m05, d_mgga_c_m05); (f_mgga_c_m08, d_mgga_c_m08);
  (f_mgga_c_pkzb, d_mgga_c_pkzb); (f_mgga_c_rppscan, d_mgga_c_rppscan);
  (f_mgga_c_rregtm, d_mgga_c_rregtm); (f_mgga_c_rscan, d_mgga_c_rscan);
  (f_mgga_c_scan, d_mgga_c_scan); (f_mgga_k_gea2, d_mgga_k_gea2); (f_mgga_k_gea4, d_mgga_k_gea4);
  (f_mgga_k_pgslb, d_mgga_k_pgslb); (f_mgga_x_2d_js17, d_mgga_x_2d_js17);
  (f_mgga_x_gdme, d_mgga_x_gdme); (f_mgga_x_gvt4, d_mgga_x_gvt4); (f_mgga_x_lta, d_mgga_x_lta);
  (f_mgga_x_m06l, d_mgga_x_m06l); (f_mgga_x_m08, d_mgga_x_m08); (f_mgga_x_m11, d_mgga_x_m11);
  (f_mgga_x_m11_l, d_mgga_x_m11_l); (f_mgga_x_mbeef, d_mgga_x_mbeef);
  (f_mgga_x_mbeefvdw, d_mgga_x_mbeefvdw); (f_mgga_x_mcml, d_mgga_x_mcml);
  (f_mgga_x_mn12, d_mgga_x_mn12); (f_mgga_x_mvs, d_mgga_x_mvs);
  (f_mgga_x_tau_hcth, d_mgga_x_tau_hcth); (f_mgga_x_th, d_mgga_x_th);
  (f_mgga_x_vcml, d_mgga_x_vcml); (f_mgga_xc_b97mv, d_mgga_xc_b97mv);
  (f_mgga_xc_b98, d_mgga_xc_b98); (f_mgga_xc_lp90, d_mgga_xc_lp90); (f_mgga_xc_zlp, d_mgga_xc_zlp)].
Lemma defined_unpol_functionals_holds : Forall (fun p => defined_unpol (snd p) (fst p)) defined_unpol_functionals.
Proof.
  change defined_unpol_functionals with (map srcd (defu_list1)). apply Forall_srcd. exact defu_all1.
Qed.

Definition nonpositive_pol_functionals : list (source * domain) := [
  (f_gga_x_2d_b86, n_gga_x_2d_b86); (f_gga_x_2d_b86_mgc, n_gga_x_2d_b86_mgc);
  (f_gga_x_2d_b88, n_gga_x_2d_b88); (f_gga_x_2d_pbe, n_gga_x_2d_pbe);
  (f_gga_x_ak13, n_gga_x_ak13); (f_gga_x_b86, n_gga_x_b86); (f_gga_x_b88, n_gga_x_b88);
  (f_gga_x_bayesian, n_gga_x_bayesian); (f_gga_x_c09x, n_gga_x_c09x);
  (f_gga_x_chachiyo, n_gga_x_chachiyo); (f_gga_x_dk87, n_gga_x_dk87);
  (f_gga_x_ev93, n_gga_x_ev93); (f_gga_x_ft97, n_gga_x_ft97); (f_gga_x_g96, n_gga_x_g96);
  (f_gga_x_herman, n_gga_x_herman); (f_gga_x_lag, n_gga_x_lag); (f_gga_x_lg93, n_gga_x_lg93);
  (f_gga_x_lv_rpw86, n_gga_x_lv_rpw86); (f_gga_x_mpbe, n_gga_x_mpbe); (f_gga_x_n12, n_gga_x_n12);
  (f_gga_x_ol2, n_gga_x_ol2); (f_gga_x_optx, n_gga_x_optx); (f_gga_x_pbe, n_gga_x_pbe);
  (f_gga_x_pbetrans, n_gga_x_pbetrans); (f_gga_x_pw86, n_gga_x_pw86);
  (f_gga_x_rge2, n_gga_x_rge2); (f_gga_x_rpbe, n_gga_x_rpbe); (f_gga_x_s12, n_gga_x_s12);
  (f_gga_x_sogga11, n_gga_x_sogga11); (f_gga_x_vmt, n_gga_x_vmt); (f_gga_x_wc, n_gga_x_wc);
  (f_lda_x, n_lda_x); (f_lda_x_2d, n_lda_x_2d); (f_lda_x_sloc, n_lda_x_sloc);
  (f_mgga_x_lta, n_mgga_x_lta); (f_mgga_x_th, n_mgga_x_th)].
Lemma nonpositive_pol_functionals_holds : Forall (fun p => nonpositive_pol (snd p) (fst p)) nonpositive_pol_functionals.
Proof.
  change nonpositive_pol_functionals with (map srcd (negp_list1)). apply Forall_srcd. exact negp_all1.
Qed.

Definition nonpositive_unpol_functionals : list (source * domain) := [
  (f_gga_x_2d_b86, n_gga_x_2d_b86); (f_gga_x_2d_b86_mgc, n_gga_x_2d_b86_mgc);
  (f_gga_x_2d_b88, n_gga_x_2d_b88); (f_gga_x_2d_pbe, n_gga_x_2d_pbe);
  (f_gga_x_ak13, n_gga_x_ak13); (f_gga_x_b86, n_gga_x_b86); (f_gga_x_b88, n_gga_x_b88);
  (f_gga_x_bayesian, n_gga_x_bayesian); (f_gga_x_c09x, n_gga_x_c09x);
  (f_gga_x_chachiyo, n_gga_x_chachiyo); (f_gga_x_dk87, n_gga_x_dk87);
  (f_gga_x_ev93, n_gga_x_ev93); (f_gga_x_ft97, n_gga_x_ft97); (f_gga_x_g96, n_gga_x_g96);
  (f_gga_x_herman, n_gga_x_herman); (f_gga_x_lag, n_gga_x_lag); (f_gga_x_lg93, n_gga_x_lg93);
  (f_gga_x_lv_rpw86, n_gga_x_lv_rpw86); (f_gga_x_mpbe, n_gga_x_mpbe); (f_gga_x_n12, n_gga_x_n12);
  (f_gga_x_ol2, n_gga_x_ol2); (f_gga_x_optx, n_gga_x_optx); (f_gga_x_pbe, n_gga_x_pbe);
  (f_gga_x_pbetrans, n_gga_x_pbetrans); (f_gga_x_pw86, n_gga_x_pw86);
  (f_gga_x_rge2, n_gga_x_rge2); (f_gga_x_rpbe, n_gga_x_rpbe); (f_gga_x_s12, n_gga_x_s12);
  (f_gga_x_sogga11, n_gga_x_sogga11); (f_gga_x_vmt, n_gga_x_vmt); (f_gga_x_wc, n_gga_x_wc);
  (f_lda_x, n_lda_x); (f_lda_x_2d, n_lda_x_2d); (f_lda_x_sloc, n_lda_x_sloc);
  (f_mgga_x_lta, n_mgga_x_lta); (f_mgga_x_th, n_mgga_x_th)].
Lemma nonpositive_unpol_functionals_holds : Forall (fun p => nonpositive_unpol (snd p) (fst p)) nonpositive_unpol_functionals.
Proof.
  change nonpositive_unpol_functionals with (map srcd (negu_list1)). apply Forall_srcd. exact negu_all1.
Qed.

Definition ready_functionals : list (source * domain) := [
  (f_gga_c_acgga, d_gga_c_acgga); (f_gga_c_acggap, d_gga_c_acggap); (f_gga_c_am05, d_gga_c_am05);
  (f_gga_c_bmk, d_gga_c_bmk); (f_gga_c_ccdf, d_gga_c_ccdf); (f_gga_c_chachiyo, d_gga_c_chachiyo);
  (f_gga_c_cs1, d_gga_c_cs1); (f_gga_c_ft97, d_gga_c_ft97); (f_gga_c_hcth_a, d_gga_c_hcth_a);
  (f_gga_c_lm, d_gga_c_lm); (f_gga_c_lyp, d_gga_c_lyp); (f_gga_c_lypr, d_gga_c_lypr);
  (f_gga_c_op_b88, d_gga_c_op_b88); (f_gga_c_op_g96, d_gga_c_op_g96);
  (f_gga_c_op_pbe, d_gga_c_op_pbe); (f_gga_c_op_xalpha, d_gga_c_op_xalpha);
  (f_gga_c_optc, d_gga_c_optc); (f_gga_c_p86, d_gga_c_p86); (f_gga_c_p86vwn, d_gga_c_p86vwn);
  (f_gga_c_pbe, d_gga_c_pbe); (f_gga_c_pbeloc, d_gga_c_pbeloc); (f_gga_c_pw91, d_gga_c_pw91);
  (f_gga_c_regtpss, d_gga_c_regtpss); (f_gga_c_revtca, d_gga_c_revtca);
  (f_gga_c_scan_e0, d_gga_c_scan_e0); (f_gga_c_sg4, d_gga_c_sg4);
  (f_gga_c_sogga11, d_gga_c_sogga11); (f_gga_c_tca, d_gga_c_tca); (f_gga_c_w94, d_gga_c_w94);
  (f_gga_c_wi, d_gga_c_wi); (f_gga_c_wl, d_gga_c_wl); (f_gga_c_zpbeint, d_gga_c_zpbeint);
  (f_gga_c_zvpbeint, d_gga_c_zvpbeint); (f_gga_c_zvpbeloc, d_gga_c_zvpbeloc);
  (f_gga_k_apbe, d_gga_k_apbe); (f_gga_k_dk, d_gga_k_dk); (f_gga_k_exp4, d_gga_k_exp4);
  (f_gga_k_lc94, d_gga_k_lc94); (f_gga_k_lgap, d_gga_k_lgap); (f_gga_k_lgap_ge, d_gga_k_lgap_ge);
  (f_gga_k_lkt, d_gga_k_lkt); (f_gga_k_llp, d_gga_k_llp); (f_gga_k_mpbe, d_gga_k_mpbe);
  (f_gga_k_ol1, d_gga_k_ol1); (f_gga_k_ol2, d_gga_k_ol2); (f_gga_k_pearson, d_gga_k_pearson);
  (f_gga_k_pg, d_gga_k_pg); (f_gga_k_pw86, d_gga_k_pw86);
  (f_gga_k_rational_p, d_gga_k_rational_p); (f_gga_k_tflw, d_gga_k_tflw);
  (f_gga_k_thakkar, d_gga_k_thakkar); (f_gga_k_vt84f, d_gga_k_vt84f);
  (f_gga_x_2d_b86, d_gga_x_2d_b86); (f_gga_x_2d_b86_mgc, d_gga_x_2d_b86_mgc);
  (f_gga_x_2d_b88, d_gga_x_2d_b88); (f_gga_x_2d_pbe, d_gga_x_2d_pbe);
  (f_gga_x_airy, d_gga_x_airy); (f_gga_x_ak13, d_gga_x_ak13); (f_gga_x_am05, d_gga_x_am05);
  (f_gga_x_b86, d_gga_x_b86); (f_gga_x_b88, d_gga_x_b88); (f_gga_x_bayesian, d_gga_x_bayesian);
  (f_gga_x_beefvdw, d_gga_x_beefvdw); (f_gga_x_bpccac, d_gga_x_bpccac);
  (f_gga_x_c09x, d_gga_x_c09x); (f_gga_x_cap, d_gga_x_cap); (f_gga_x_chachiyo, d_gga_x_chachiyo);
  (f_gga_x_dk87, d_gga_x_dk87); (f_gga_x_ev93, d_gga_x_ev93); (f_gga_x_ft97, d_gga_x_ft97);
  (f_gga_x_g96, d_gga_x_g96); (f_gga_x_hcth_a, d_gga_x_hcth_a); (f_gga_x_herman, d_gga_x_herman);
  (f_gga_x_hjs, d_gga_x_hjs); (f_gga_x_htbs, d_gga_x_htbs); (f_gga_x_ityh, d_gga_x_ityh);
  (f_gga_x_ityh_optx, d_gga_x_ityh_optx); (f_gga_x_ityh_pbe, d_gga_x_ityh_pbe);
  (f_gga_x_kt, d_gga_x_kt); (f_gga_x_lag, d_gga_x_lag); (f_gga_x_lg93, d_gga_x_lg93);
  (f_gga_x_lspbe, d_gga_x_lspbe); (f_gga_x_lsrpbe, d_gga_x_lsrpbe);
  (f_gga_x_lv_rpw86, d_gga_x_lv_rpw86); (f_gga_x_mpbe, d_gga_x_mpbe); (f_gga_x_n12, d_gga_x_n12);
  (f_gga_x_ncap, d_gga_x_ncap); (f_gga_x_ol2, d_gga_x_ol2); (f_gga_x_optx, d_gga_x_optx);
  (f_gga_x_pbe, d_gga_x_pbe); (f_gga_x_pbea, d_gga_x_pbea); (f_gga_x_pbepow, d_gga_x_pbepow);
  (f_gga_x_pbetrans, d_gga_x_pbetrans); (f_gga_x_pw86, d_gga_x_pw86);
  (f_gga_x_pw91, d_gga_x_pw91); (f_gga_x_q1d, d_gga_x_q1d); (f_gga_x_q2d, d_gga_x_q2d);
  (f_gga_x_rge2, d_gga_x_rge2); (f_gga_x_rpbe, d_gga_x_rpbe); (f_gga_x_s12, d_gga_x_s12);
  (f_gga_x_sfat, d_gga_x_sfat); (f_gga_x_sfat_pbe, d_gga_x_sfat_pbe);
  (f_gga_x_sogga11, d_gga_x_sogga11); (f_gga_x_ssb_sw, d_gga_x_ssb_sw);
  (f_gga_x_vmt, d_gga_x_vmt); (f_gga_x_vmt84, d_gga_x_vmt84); (f_gga_x_wc, d_gga_x_wc);
  (f_gga_x_wpbeh, d_gga_x_wpbeh); (f_gga_xc_b97, d_gga_xc_b97); (f_gga_xc_th1, d_gga_xc_th1);
  (f_gga_xc_th2, d_gga_xc_th2); (f_gga_xc_th3, d_gga_xc_th3);
  (f_hyb_gga_x_cam_s12, d_hyb_gga_x_cam_s12); (f_hyb_gga_xc_wb97, d_hyb_gga_xc_wb97);
  (f_hyb_mgga_x_dldf, d_hyb_mgga_x_dldf); (f_hyb_mgga_x_m05, d_hyb_mgga_x_m05);
  (f_hyb_mgga_x_pjs18, d_hyb_mgga_x_pjs18); (f_hyb_mgga_xc_wb97mv, d_hyb_mgga_xc_wb97mv);
  (f_lda_c_1d_csc, d_lda_c_1d_csc); (f_lda_c_1d_loos, d_lda_c_1d_loos);
  (f_lda_c_2d_prm, d_lda_c_2d_prm); (f_lda_c_chachiyo, d_lda_c_chachiyo);
  (f_lda_c_chachiyo_mod, d_lda_c_chachiyo_mod); (f_lda_c_gk72, d_lda_c_gk72);
  (f_lda_c_gombas, d_lda_c_gombas); (f_lda_c_hl, d_lda_c_hl); (f_lda_c_lp96, d_lda_c_lp96);
  (f_lda_c_ml1, d_lda_c_ml1); (f_lda_c_pmgb06, d_lda_c_pmgb06); (f_lda_c_pw, d_lda_c_pw);
  (f_lda_c_pz, d_lda_c_pz); (f_lda_c_rc04, d_lda_c_rc04); (f_lda_c_rpa, d_lda_c_rpa);
  (f_lda_c_vwn, d_lda_c_vwn); (f_lda_c_vwn_1, d_lda_c_vwn_1); (f_lda_c_vwn_2, d_lda_c_vwn_2);
  (f_lda_c_vwn_4, d_lda_c_vwn_4); (f_lda_c_vwn_rpa, d_lda_c_vwn_rpa);
  (f_lda_c_wigner, d_lda_c_wigner); (f_lda_k_gds08_worker, d_lda_k_gds08_worker);
  (f_lda_k_tf, d_lda_k_tf); (f_lda_k_zlp, d_lda_k_zlp); (f_lda_x, d_lda_x);
  (f_lda_x_2d, d_lda_x_2d); (f_lda_x_erf, d_lda_x_erf); (f_lda_x_rel, d_lda_x_rel);
  (f_lda_x_sloc, d_lda_x_sloc); (f_lda_x_yukawa, d_lda_x_yukawa);
  (f_lda_xc_1d_ehwlrg, d_lda_xc_1d_ehwlrg); (f_lda_xc_teter93, d_lda_xc_teter93);
  (f_lda_xc_tih, d_lda_xc_tih); (f_lda_xc_zlp, d_lda_xc_zlp); (f_mgga_c_b88, d_mgga_c_b88);
  (f_mgga_c_bc95, d_mgga_c_bc95); (f_mgga_c_cc, d_mgga_c_cc); (f_mgga_c_cs, d_mgga_c_cs);
  (f_mgga_c_ltapw, d_mgga_c_ltapw); (f_mgga_c_m05, d_mgga_c_m05); (f_mgga_c_m08, d_mgga_c_m08);
  (f_mgga_c_pkzb, d_mgga_c_pkzb); (f_mgga_c_rppscan, d_mgga_c_rppscan);
  (f_mgga_c_rregtm, d_mgga_c_rregtm); (f_mgga_c_rscan, d_mgga_c_rscan);
  (f_mgga_c_scan, d_mgga_c_scan); (f_mgga_k_gea2, d_mgga_k_gea2); (f_mgga_k_gea4, d_mgga_k_gea4);
  (f_mgga_k_pgslb, d_mgga_k_pgslb); (f_mgga_x_2d_js17, d_mgga_x_2d_js17);
  (f_mgga_x_gdme, d_mgga_x_gdme); (f_mgga_x_gvt4, d_mgga_x_gvt4); (f_mgga_x_lta, d_mgga_x_lta);
  (f_mgga_x_m06l, d_mgga_x_m06l); (f_mgga_x_m08, d_mgga_x_m08); (f_mgga_x_m11, d_mgga_x_m11);
  (f_mgga_x_m11_l, d_mgga_x_m11_l); (f_mgga_x_mbeef, d_mgga_x_mbeef);
  (f_mgga_x_mbeefvdw, d_mgga_x_mbeefvdw); (f_mgga_x_mcml, d_mgga_x_mcml);
  (f_mgga_x_mn12, d_mgga_x_mn12); (f_mgga_x_mvs, d_mgga_x_mvs);
  (f_mgga_x_tau_hcth, d_mgga_x_tau_hcth); (f_mgga_x_th, d_mgga_x_th);
  (f_mgga_x_vcml, d_mgga_x_vcml); (f_mgga_xc_b97mv, d_mgga_xc_b97mv);
  (f_mgga_xc_b98, d_mgga_xc_b98); (f_mgga_xc_lp90, d_mgga_xc_lp90); (f_mgga_xc_zlp, d_mgga_xc_zlp)].
Lemma ready_functionals_holds : Forall (fun p => ready (snd p) (fst p)) ready_functionals.
Proof.
  change ready_functionals with (map srcd (lib_list1)). apply Forall_srcd. exact lib_all1.
Qed.

Definition ready_nonpositive_functionals : list (source * domain) := [
  (f_gga_x_2d_b86, n_gga_x_2d_b86); (f_gga_x_2d_b86_mgc, n_gga_x_2d_b86_mgc);
  (f_gga_x_2d_b88, n_gga_x_2d_b88); (f_gga_x_2d_pbe, n_gga_x_2d_pbe);
  (f_gga_x_ak13, n_gga_x_ak13); (f_gga_x_b86, n_gga_x_b86); (f_gga_x_b88, n_gga_x_b88);
  (f_gga_x_bayesian, n_gga_x_bayesian); (f_gga_x_c09x, n_gga_x_c09x);
  (f_gga_x_chachiyo, n_gga_x_chachiyo); (f_gga_x_dk87, n_gga_x_dk87);
  (f_gga_x_ev93, n_gga_x_ev93); (f_gga_x_ft97, n_gga_x_ft97); (f_gga_x_g96, n_gga_x_g96);
  (f_gga_x_herman, n_gga_x_herman); (f_gga_x_lag, n_gga_x_lag); (f_gga_x_lg93, n_gga_x_lg93);
  (f_gga_x_lv_rpw86, n_gga_x_lv_rpw86); (f_gga_x_mpbe, n_gga_x_mpbe); (f_gga_x_n12, n_gga_x_n12);
  (f_gga_x_ol2, n_gga_x_ol2); (f_gga_x_optx, n_gga_x_optx); (f_gga_x_pbe, n_gga_x_pbe);
  (f_gga_x_pbetrans, n_gga_x_pbetrans); (f_gga_x_pw86, n_gga_x_pw86);
  (f_gga_x_rge2, n_gga_x_rge2); (f_gga_x_rpbe, n_gga_x_rpbe); (f_gga_x_s12, n_gga_x_s12);
  (f_gga_x_sogga11, n_gga_x_sogga11); (f_gga_x_vmt, n_gga_x_vmt); (f_gga_x_wc, n_gga_x_wc);
  (f_lda_x, n_lda_x); (f_lda_x_2d, n_lda_x_2d); (f_lda_x_sloc, n_lda_x_sloc);
  (f_mgga_x_lta, n_mgga_x_lta); (f_mgga_x_th, n_mgga_x_th)].
Lemma ready_nonpositive_functionals_holds : Forall (fun p => ready (snd p) (fst p)) ready_nonpositive_functionals.
Proof.
  change ready_nonpositive_functionals with (map srcd (libn_list1)). apply Forall_srcd. exact libn_all1.
Qed.

Definition closed_shell_exact_functionals : list (source * domain) := [
  (f_gga_c_acgga, d_gga_c_acgga); (f_gga_c_acggap, d_gga_c_acggap); (f_gga_c_am05, d_gga_c_am05);
  (f_gga_c_bmk, d_gga_c_bmk); (f_gga_c_ccdf, d_gga_c_ccdf); (f_gga_c_cs1, d_gga_c_cs1);
  (f_gga_c_hcth_a, d_gga_c_hcth_a); (f_gga_c_lm, d_gga_c_lm); (f_gga_c_lyp, d_gga_c_lyp);
  (f_gga_c_lypr, d_gga_c_lypr); (f_gga_c_op_b88, d_gga_c_op_b88);
  (f_gga_c_op_g96, d_gga_c_op_g96); (f_gga_c_op_pbe, d_gga_c_op_pbe);
  (f_gga_c_op_xalpha, d_gga_c_op_xalpha); (f_gga_c_p86, d_gga_c_p86);
  (f_gga_c_p86vwn, d_gga_c_p86vwn); (f_gga_c_pbe, d_gga_c_pbe); (f_gga_c_pbeloc, d_gga_c_pbeloc);
  (f_gga_c_pw91, d_gga_c_pw91); (f_gga_c_regtpss, d_gga_c_regtpss);
  (f_gga_c_revtca, d_gga_c_revtca); (f_gga_c_scan_e0, d_gga_c_scan_e0);
  (f_gga_c_sg4, d_gga_c_sg4); (f_gga_c_sogga11, d_gga_c_sogga11); (f_gga_c_tca, d_gga_c_tca);
  (f_gga_c_w94, d_gga_c_w94); (f_gga_c_wi, d_gga_c_wi); (f_gga_c_zpbeint, d_gga_c_zpbeint);
  (f_gga_c_zvpbeint, d_gga_c_zvpbeint); (f_gga_c_zvpbeloc, d_gga_c_zvpbeloc);
  (f_gga_k_apbe, d_gga_k_apbe); (f_gga_k_dk, d_gga_k_dk); (f_gga_k_lc94, d_gga_k_lc94);
  (f_gga_k_lgap, d_gga_k_lgap); (f_gga_k_lgap_ge, d_gga_k_lgap_ge); (f_gga_k_lkt, d_gga_k_lkt);
  (f_gga_k_llp, d_gga_k_llp); (f_gga_k_mpbe, d_gga_k_mpbe); (f_gga_k_ol1, d_gga_k_ol1);
  (f_gga_k_ol2, d_gga_k_ol2); (f_gga_k_pearson, d_gga_k_pearson); (f_gga_k_pg, d_gga_k_pg);
  (f_gga_k_pw86, d_gga_k_pw86); (f_gga_k_rational_p, d_gga_k_rational_p);
  (f_gga_k_tflw, d_gga_k_tflw); (f_gga_k_thakkar, d_gga_k_thakkar);
  (f_gga_k_vt84f, d_gga_k_vt84f); (f_gga_x_2d_b86, d_gga_x_2d_b86);
  (f_gga_x_2d_b86_mgc, d_gga_x_2d_b86_mgc); (f_gga_x_2d_b88, d_gga_x_2d_b88);
  (f_gga_x_2d_pbe, d_gga_x_2d_pbe); (f_gga_x_airy, d_gga_x_airy); (f_gga_x_ak13, d_gga_x_ak13);
  (f_gga_x_am05, d_gga_x_am05); (f_gga_x_b86, d_gga_x_b86); (f_gga_x_b88, d_gga_x_b88);
  (f_gga_x_bayesian, d_gga_x_bayesian); (f_gga_x_beefvdw, d_gga_x_beefvdw);
  (f_gga_x_c09x, d_gga_x_c09x); (f_gga_x_cap, d_gga_x_cap); (f_gga_x_chachiyo, d_gga_x_chachiyo);
  (f_gga_x_dk87, d_gga_x_dk87); (f_gga_x_ev93, d_gga_x_ev93); (f_gga_x_ft97, d_gga_x_ft97);
  (f_gga_x_g96, d_gga_x_g96); (f_gga_x_hcth_a, d_gga_x_hcth_a); (f_gga_x_herman, d_gga_x_herman);
  (f_gga_x_hjs, d_gga_x_hjs); (f_gga_x_ityh, d_gga_x_ityh);
  (f_gga_x_ityh_optx, d_gga_x_ityh_optx); (f_gga_x_ityh_pbe, d_gga_x_ityh_pbe);
  (f_gga_x_kt, d_gga_x_kt); (f_gga_x_lag, d_gga_x_lag); (f_gga_x_lspbe, d_gga_x_lspbe);
  (f_gga_x_lsrpbe, d_gga_x_lsrpbe); (f_gga_x_mpbe, d_gga_x_mpbe); (f_gga_x_n12, d_gga_x_n12);
  (f_gga_x_ncap, d_gga_x_ncap); (f_gga_x_ol2, d_gga_x_ol2); (f_gga_x_optx, d_gga_x_optx);
  (f_gga_x_pbe, d_gga_x_pbe); (f_gga_x_pbea, d_gga_x_pbea); (f_gga_x_pbepow, d_gga_x_pbepow);
  (f_gga_x_pbetrans, d_gga_x_pbetrans); (f_gga_x_pw86, d_gga_x_pw86);
  (f_gga_x_pw91, d_gga_x_pw91); (f_gga_x_q1d, d_gga_x_q1d); (f_gga_x_q2d, d_gga_x_q2d);
  (f_gga_x_rpbe, d_gga_x_rpbe); (f_gga_x_s12, d_gga_x_s12); (f_gga_x_sfat, d_gga_x_sfat);
  (f_gga_x_sfat_pbe, d_gga_x_sfat_pbe); (f_gga_x_sogga11, d_gga_x_sogga11);
  (f_gga_x_ssb_sw, d_gga_x_ssb_sw); (f_gga_x_vmt, d_gga_x_vmt); (f_gga_x_vmt84, d_gga_x_vmt84);
  (f_gga_x_wc, d_gga_x_wc); (f_gga_x_wpbeh, d_gga_x_wpbeh); (f_gga_xc_b97, d_gga_xc_b97);
  (f_gga_xc_th1, d_gga_xc_th1); (f_gga_xc_th2, d_gga_xc_th2);
  (f_hyb_gga_x_cam_s12, d_hyb_gga_x_cam_s12); (f_hyb_gga_xc_wb97, d_hyb_gga_xc_wb97);
  (f_hyb_mgga_x_dldf, d_hyb_mgga_x_dldf); (f_hyb_mgga_x_m05, d_hyb_mgga_x_m05);
  (f_hyb_mgga_x_pjs18, d_hyb_mgga_x_pjs18); (f_hyb_mgga_xc_wb97mv, d_hyb_mgga_xc_wb97mv);
  (f_lda_c_1d_csc, d_lda_c_1d_csc); (f_lda_c_1d_loos, d_lda_c_1d_loos);
  (f_lda_c_2d_prm, d_lda_c_2d_prm); (f_lda_c_chachiyo, d_lda_c_chachiyo);
  (f_lda_c_chachiyo_mod, d_lda_c_chachiyo_mod); (f_lda_c_gk72, d_lda_c_gk72);
  (f_lda_c_gombas, d_lda_c_gombas); (f_lda_c_hl, d_lda_c_hl); (f_lda_c_lp96, d_lda_c_lp96);
  (f_lda_c_pmgb06, d_lda_c_pmgb06); (f_lda_c_pw, d_lda_c_pw); (f_lda_c_pz, d_lda_c_pz);
  (f_lda_c_rc04, d_lda_c_rc04); (f_lda_c_rpa, d_lda_c_rpa); (f_lda_c_vwn, d_lda_c_vwn);
  (f_lda_c_vwn_1, d_lda_c_vwn_1); (f_lda_c_vwn_2, d_lda_c_vwn_2); (f_lda_c_vwn_4, d_lda_c_vwn_4);
  (f_lda_c_vwn_rpa, d_lda_c_vwn_rpa); (f_lda_c_wigner, d_lda_c_wigner);
  (f_lda_k_gds08_worker, d_lda_k_gds08_worker); (f_lda_k_tf, d_lda_k_tf);
  (f_lda_k_zlp, d_lda_k_zlp); (f_lda_x, d_lda_x); (f_lda_x_2d, d_lda_x_2d);
  (f_lda_x_erf, d_lda_x_erf); (f_lda_x_rel, d_lda_x_rel); (f_lda_x_sloc, d_lda_x_sloc);
  (f_lda_x_yukawa, d_lda_x_yukawa); (f_lda_xc_1d_ehwlrg, d_lda_xc_1d_ehwlrg);
  (f_lda_xc_teter93, d_lda_xc_teter93); (f_lda_xc_tih, d_lda_xc_tih);
  (f_lda_xc_zlp, d_lda_xc_zlp); (f_mgga_c_b88, d_mgga_c_b88); (f_mgga_c_bc95, d_mgga_c_bc95);
  (f_mgga_c_cc, d_mgga_c_cc); (f_mgga_c_cs, d_mgga_c_cs); (f_mgga_c_ltapw, d_mgga_c_ltapw);
  (f_mgga_c_m05, d_mgga_c_m05); (f_mgga_c_m08, d_mgga_c_m08); (f_mgga_c_pkzb, d_mgga_c_pkzb);
  (f_mgga_c_rppscan, d_mgga_c_rppscan); (f_mgga_c_rregtm, d_mgga_c_rregtm);
  (f_mgga_c_rscan, d_mgga_c_rscan); (f_mgga_c_scan, d_mgga_c_scan);
  (f_mgga_k_gea2, d_mgga_k_gea2); (f_mgga_k_gea4, d_mgga_k_gea4);
  (f_mgga_k_pgslb, d_mgga_k_pgslb); (f_mgga_x_gdme, d_mgga_x_gdme);
  (f_mgga_x_gvt4, d_mgga_x_gvt4); (f_mgga_x_lta, d_mgga_x_lta); (f_mgga_x_m06l, d_mgga_x_m06l);
  (f_mgga_x_m08, d_mgga_x_m08); (f_mgga_x_m11, d_mgga_x_m11); (f_mgga_x_m11_l, d_mgga_x_m11_l);
  (f_mgga_x_mbeef, d_mgga_x_mbeef); (f_mgga_x_mbeefvdw, d_mgga_x_mbeefvdw);
  (f_mgga_x_mcml, d_mgga_x_mcml); (f_mgga_x_mn12, d_mgga_x_mn12); (f_mgga_x_mvs, d_mgga_x_mvs);
  (f_mgga_x_tau_hcth, d_mgga_x_tau_hcth); (f_mgga_x_th, d_mgga_x_th);
  (f_mgga_x_vcml, d_mgga_x_vcml); (f_mgga_xc_b97mv, d_mgga_xc_b97mv);
  (f_mgga_xc_b98, d_mgga_xc_b98); (f_mgga_xc_lp90, d_mgga_xc_lp90); (f_mgga_xc_zlp, d_mgga_xc_zlp)].
Lemma closed_shell_exact_functionals_weak : Forall (fun p => closed_shell_agrees (fst p)) closed_shell_exact_functionals.
Proof.
  apply (Forall_pick _ _ closed_shell_exact_functionals fst [
  0; 79; 158; 1; 80; 2; 3; 82; 161; 4; 83; 162; 5; 84; 163; 6; 85; 7; 86; 8; 87; 166; 9; 88; 167;
  10; 89; 11; 90; 169; 12; 170; 13; 92; 171; 14; 93; 15; 94; 173; 16; 95; 174; 17; 96; 175; 18;
  97; 176; 19; 98; 177; 20; 99; 178; 21; 100; 237; 179; 22; 101; 180; 23; 181; 24; 182; 25; 104;
  26; 105; 184; 27; 106; 28; 107; 186; 29; 108; 187; 30; 109; 188; 238; 110; 189; 32; 111; 190;
  33; 112; 191; 34; 113; 192; 35; 114; 193; 36; 115; 242; 243; 194; 116; 38; 196; 39; 118; 197;
  40; 198; 41; 120; 199; 42; 121; 200; 43; 122; 201; 44; 123; 202; 45; 124; 46; 125; 47; 126;
  205; 48; 127; 128; 207; 50; 129; 208; 51; 209; 52; 131; 210; 132; 211; 133; 55; 134; 56; 135;
  58; 137; 216; 59; 218; 61; 62; 222; 65; 66; 145; 224; 67; 146; 239; 225; 240; 148; 149; 154;
  76; 241; 156; 235; 157; 236]%nat closed_shell_holds). reflexivity.
Qed.
Lemma closed_shell_exact_functionals_def_pol : Forall (fun p => defined_pol (snd p) (fst p)) closed_shell_exact_functionals.
Proof.
  apply (Forall_pick _ _ closed_shell_exact_functionals (fun p => p) [
  0; 1; 2; 3; 4; 5; 7; 8; 9; 10; 11; 12; 13; 14; 16; 17; 18; 19; 20; 21; 22; 23; 24; 25; 26; 27;
  28; 29; 30; 31; 32; 33; 35; 36; 37; 38; 39; 40; 41; 42; 43; 44; 45; 46; 47; 48; 49; 50; 51; 52;
  53; 54; 55; 56; 57; 58; 59; 60; 62; 63; 64; 65; 66; 67; 68; 69; 70; 71; 73; 74; 75; 76; 77; 79;
  80; 82; 83; 84; 85; 86; 87; 88; 89; 90; 91; 92; 93; 94; 96; 97; 98; 99; 100; 101; 102; 103;
  104; 105; 106; 107; 108; 110; 111; 112; 113; 114; 115; 116; 117; 118; 119; 120; 121; 122; 123;
  124; 126; 127; 128; 129; 130; 131; 132; 133; 134; 135; 136; 137; 138; 139; 140; 141; 142; 143;
  144; 145; 146; 147; 148; 149; 150; 151; 152; 153; 154; 155; 156; 157; 158; 159; 160; 161; 162;
  163; 164; 166; 167; 168; 169; 170; 171; 172; 173; 174; 175; 176; 177; 178; 179; 180; 181; 182;
  183; 184]%nat defined_pol_functionals_holds). reflexivity.
Qed.
Lemma closed_shell_exact_functionals_def_unpol : Forall (fun p => defined_unpol (snd p) (fst p)) closed_shell_exact_functionals.
Proof.
  apply (Forall_pick _ _ closed_shell_exact_functionals (fun p => p) [
  0; 1; 2; 3; 4; 6; 8; 9; 10; 11; 12; 13; 14; 15; 17; 18; 19; 20; 21; 22; 23; 24; 25; 26; 27; 28;
  29; 31; 32; 33; 34; 35; 37; 38; 39; 40; 41; 42; 43; 44; 45; 46; 47; 48; 49; 50; 51; 52; 53; 54;
  55; 56; 57; 58; 59; 60; 61; 62; 64; 65; 66; 67; 68; 69; 70; 71; 72; 73; 75; 76; 77; 78; 79; 81;
  82; 84; 85; 86; 87; 88; 89; 90; 91; 92; 93; 94; 95; 96; 98; 99; 100; 101; 102; 103; 104; 105;
  106; 107; 108; 109; 110; 112; 113; 114; 115; 116; 117; 118; 119; 120; 121; 122; 123; 124; 125;
  126; 128; 129; 130; 131; 132; 133; 134; 135; 136; 137; 138; 139; 140; 141; 142; 143; 144; 145;
  146; 147; 148; 149; 150; 151; 152; 153; 154; 155; 156; 157; 158; 159; 160; 161; 162; 163; 164;
  165; 166; 168; 169; 170; 171; 172; 173; 174; 175; 176; 177; 178; 179; 180; 181; 182; 183; 184;
  185; 186]%nat defined_unpol_functionals_holds). reflexivity.
Qed.
Lemma closed_shell_exact_functionals_holds : Forall (fun p => closed_shell_exact (snd p) (fst p)) closed_shell_exact_functionals.
Proof.
  apply Forall_forall. intros p H.
  exact (closed_exact (snd p) (fst p) (proj1 (Forall_forall _ _) closed_shell_exact_functionals_def_pol p H) (proj1 (Forall_forall _ _) closed_shell_exact_functionals_def_unpol p H) (proj1 (Forall_forall _ _) closed_shell_exact_functionals_weak p H)).
Qed.

Lemma closed_shell_exact_functionals_ready : Forall (fun p => ready (snd p) (fst p)) closed_shell_exact_functionals.
Proof.
  apply (Forall_pick _ _ closed_shell_exact_functionals (fun p => p) [
  0; 1; 2; 3; 4; 6; 8; 9; 10; 11; 12; 13; 14; 15; 17; 18; 19; 20; 21; 22; 23; 24; 25; 26; 27; 28;
  29; 31; 32; 33; 34; 35; 37; 38; 39; 40; 41; 42; 43; 44; 45; 46; 47; 48; 49; 50; 51; 52; 53; 54;
  55; 56; 57; 58; 59; 60; 61; 62; 64; 65; 66; 67; 68; 69; 70; 71; 72; 73; 75; 76; 77; 78; 79; 81;
  82; 84; 85; 86; 87; 88; 89; 90; 91; 92; 93; 94; 95; 96; 98; 99; 100; 101; 102; 103; 104; 105;
  106; 107; 108; 109; 110; 112; 113; 114; 115; 116; 117; 118; 119; 120; 121; 122; 123; 124; 125;
  126; 128; 129; 130; 131; 132; 133; 134; 135; 136; 137; 138; 139; 140; 141; 142; 143; 144; 145;
  146; 147; 148; 149; 150; 151; 152; 153; 154; 155; 156; 157; 158; 159; 160; 161; 162; 163; 164;
  165; 166; 168; 169; 170; 171; 172; 173; 174; 175; 176; 177; 178; 179; 180; 181; 182; 183; 184;
  185; 186]%nat ready_functionals_holds). reflexivity.
Qed.
Lemma closed_shell_exact_functionals_library : Forall (fun p => closed_shell_library (snd p) (fst p)) closed_shell_exact_functionals.
Proof.
  apply Forall_forall. intros p H. destruct (proj1 (Forall_forall _ _) closed_shell_exact_functionals_ready p H) as [U RF].
  exact (closed_library (snd p) (fst p) U (proj1 (Forall_forall _ _) closed_shell_exact_functionals_holds p H)).
Qed.

Definition swap_exact_functionals : list (source * domain) := [
  (f_gga_c_acgga, d_gga_c_acgga); (f_gga_c_acggap, d_gga_c_acggap); (f_gga_c_am05, d_gga_c_am05);
  (f_gga_c_bmk, d_gga_c_bmk); (f_gga_c_ccdf, d_gga_c_ccdf); (f_gga_c_cs1, d_gga_c_cs1);
  (f_gga_c_ft97, d_gga_c_ft97); (f_gga_c_hcth_a, d_gga_c_hcth_a); (f_gga_c_lm, d_gga_c_lm);
  (f_gga_c_lyp, d_gga_c_lyp); (f_gga_c_lypr, d_gga_c_lypr); (f_gga_c_op_b88, d_gga_c_op_b88);
  (f_gga_c_op_g96, d_gga_c_op_g96); (f_gga_c_op_pbe, d_gga_c_op_pbe);
  (f_gga_c_op_xalpha, d_gga_c_op_xalpha); (f_gga_c_optc, d_gga_c_optc);
  (f_gga_c_p86, d_gga_c_p86); (f_gga_c_p86vwn, d_gga_c_p86vwn); (f_gga_c_pbe, d_gga_c_pbe);
  (f_gga_c_pbeloc, d_gga_c_pbeloc); (f_gga_c_pw91, d_gga_c_pw91);
  (f_gga_c_regtpss, d_gga_c_regtpss); (f_gga_c_revtca, d_gga_c_revtca);
  (f_gga_c_scan_e0, d_gga_c_scan_e0); (f_gga_c_sg4, d_gga_c_sg4);
  (f_gga_c_sogga11, d_gga_c_sogga11); (f_gga_c_tca, d_gga_c_tca); (f_gga_c_w94, d_gga_c_w94);
  (f_gga_c_wi, d_gga_c_wi); (f_gga_c_zpbeint, d_gga_c_zpbeint);
  (f_gga_c_zvpbeint, d_gga_c_zvpbeint); (f_gga_c_zvpbeloc, d_gga_c_zvpbeloc);
  (f_gga_k_apbe, d_gga_k_apbe); (f_gga_k_dk, d_gga_k_dk); (f_gga_k_exp4, d_gga_k_exp4);
  (f_gga_k_lc94, d_gga_k_lc94); (f_gga_k_lgap, d_gga_k_lgap); (f_gga_k_lgap_ge, d_gga_k_lgap_ge);
  (f_gga_k_lkt, d_gga_k_lkt); (f_gga_k_llp, d_gga_k_llp); (f_gga_k_mpbe, d_gga_k_mpbe);
  (f_gga_k_ol1, d_gga_k_ol1); (f_gga_k_ol2, d_gga_k_ol2); (f_gga_k_pearson, d_gga_k_pearson);
  (f_gga_k_pg, d_gga_k_pg); (f_gga_k_pw86, d_gga_k_pw86);
  (f_gga_k_rational_p, d_gga_k_rational_p); (f_gga_k_tflw, d_gga_k_tflw);
  (f_gga_k_thakkar, d_gga_k_thakkar); (f_gga_k_vt84f, d_gga_k_vt84f);
  (f_gga_x_2d_b86, d_gga_x_2d_b86); (f_gga_x_2d_b86_mgc, d_gga_x_2d_b86_mgc);
  (f_gga_x_2d_b88, d_gga_x_2d_b88); (f_gga_x_2d_pbe, d_gga_x_2d_pbe);
  (f_gga_x_airy, d_gga_x_airy); (f_gga_x_ak13, d_gga_x_ak13); (f_gga_x_am05, d_gga_x_am05);
  (f_gga_x_b86, d_gga_x_b86); (f_gga_x_b88, d_gga_x_b88); (f_gga_x_bayesian, d_gga_x_bayesian);
  (f_gga_x_beefvdw, d_gga_x_beefvdw); (f_gga_x_bpccac, d_gga_x_bpccac);
  (f_gga_x_c09x, d_gga_x_c09x); (f_gga_x_cap, d_gga_x_cap); (f_gga_x_chachiyo, d_gga_x_chachiyo);
  (f_gga_x_dk87, d_gga_x_dk87); (f_gga_x_ev93, d_gga_x_ev93); (f_gga_x_ft97, d_gga_x_ft97);
  (f_gga_x_g96, d_gga_x_g96); (f_gga_x_hcth_a, d_gga_x_hcth_a); (f_gga_x_herman, d_gga_x_herman);
  (f_gga_x_hjs, d_gga_x_hjs); (f_gga_x_htbs, d_gga_x_htbs); (f_gga_x_ityh, d_gga_x_ityh);
  (f_gga_x_ityh_optx, d_gga_x_ityh_optx); (f_gga_x_ityh_pbe, d_gga_x_ityh_pbe);
  (f_gga_x_kt, d_gga_x_kt); (f_gga_x_lag, d_gga_x_lag); (f_gga_x_lg93, d_gga_x_lg93);
  (f_gga_x_lspbe, d_gga_x_lspbe); (f_gga_x_lsrpbe, d_gga_x_lsrpbe);
  (f_gga_x_lv_rpw86, d_gga_x_lv_rpw86); (f_gga_x_mpbe, d_gga_x_mpbe); (f_gga_x_n12, d_gga_x_n12);
  (f_gga_x_ncap, d_gga_x_ncap); (f_gga_x_ol2, d_gga_x_ol2); (f_gga_x_optx, d_gga_x_optx);
  (f_gga_x_pbe, d_gga_x_pbe); (f_gga_x_pbea, d_gga_x_pbea); (f_gga_x_pbepow, d_gga_x_pbepow);
  (f_gga_x_pbetrans, d_gga_x_pbetrans); (f_gga_x_pw86, d_gga_x_pw86);
  (f_gga_x_pw91, d_gga_x_pw91); (f_gga_x_q1d, d_gga_x_q1d); (f_gga_x_q2d, d_gga_x_q2d);
  (f_gga_x_rge2, d_gga_x_rge2); (f_gga_x_rpbe, d_gga_x_rpbe); (f_gga_x_s12, d_gga_x_s12);
  (f_gga_x_sfat, d_gga_x_sfat); (f_gga_x_sfat_pbe, d_gga_x_sfat_pbe);
  (f_gga_x_sogga11, d_gga_x_sogga11); (f_gga_x_ssb_sw, d_gga_x_ssb_sw);
  (f_gga_x_vmt, d_gga_x_vmt); (f_gga_x_vmt84, d_gga_x_vmt84); (f_gga_x_wc, d_gga_x_wc);
  (f_gga_x_wpbeh, d_gga_x_wpbeh); (f_gga_xc_b97, d_gga_xc_b97); (f_gga_xc_th1, d_gga_xc_th1);
  (f_gga_xc_th2, d_gga_xc_th2); (f_gga_xc_th3, d_gga_xc_th3);
  (f_hyb_gga_x_cam_s12, d_hyb_gga_x_cam_s12); (f_hyb_gga_xc_wb97, d_hyb_gga_xc_wb97);
  (f_hyb_mgga_x_dldf, d_hyb_mgga_x_dldf); (f_hyb_mgga_x_m05, d_hyb_mgga_x_m05);
  (f_hyb_mgga_x_pjs18, d_hyb_mgga_x_pjs18); (f_hyb_mgga_xc_wb97mv, d_hyb_mgga_xc_wb97mv);
  (f_lda_c_1d_csc, d_lda_c_1d_csc); (f_lda_c_1d_loos, d_lda_c_1d_loos);
  (f_lda_c_2d_prm, d_lda_c_2d_prm); (f_lda_c_chachiyo, d_lda_c_chachiyo);
  (f_lda_c_chachiyo_mod, d_lda_c_chachiyo_mod); (f_lda_c_gk72, d_lda_c_gk72);
  (f_lda_c_gombas, d_lda_c_gombas); (f_lda_c_hl, d_lda_c_hl); (f_lda_c_lp96, d_lda_c_lp96);
  (f_lda_c_ml1, d_lda_c_ml1); (f_lda_c_pmgb06, d_lda_c_pmgb06); (f_lda_c_pw, d_lda_c_pw);
  (f_lda_c_pz, d_lda_c_pz); (f_lda_c_rc04, d_lda_c_rc04); (f_lda_c_rpa, d_lda_c_rpa);
  (f_lda_c_vwn, d_lda_c_vwn); (f_lda_c_vwn_1, d_lda_c_vwn_1); (f_lda_c_vwn_2, d_lda_c_vwn_2);
  (f_lda_c_vwn_4, d_lda_c_vwn_4); (f_lda_c_vwn_rpa, d_lda_c_vwn_rpa);
  (f_lda_c_wigner, d_lda_c_wigner); (f_lda_k_gds08_worker, d_lda_k_gds08_worker);
  (f_lda_k_tf, d_lda_k_tf); (f_lda_k_zlp, d_lda_k_zlp); (f_lda_x, d_lda_x);
  (f_lda_x_2d, d_lda_x_2d); (f_lda_x_erf, d_lda_x_erf); (f_lda_x_rel, d_lda_x_rel);
  (f_lda_x_sloc, d_lda_x_sloc); (f_lda_x_yukawa, d_lda_x_yukawa);
  (f_lda_xc_1d_ehwlrg, d_lda_xc_1d_ehwlrg); (f_lda_xc_teter93, d_lda_xc_teter93);
  (f_lda_xc_tih, d_lda_xc_tih); (f_lda_xc_zlp, d_lda_xc_zlp); (f_mgga_c_b88, d_mgga_c_b88);
  (f_mgga_c_bc95, d_mgga_c_bc95); (f_mgga_c_cc, d_mgga_c_cc); (f_mgga_c_cs, d_mgga_c_cs);
  (f_mgga_c_ltapw, d_mgga_c_ltapw); (f_mgga_c_m05, d_mgga_c_m05); (f_mgga_c_m08, d_mgga_c_m08);
  (f_mgga_c_pkzb, d_mgga_c_pkzb); (f_mgga_c_rppscan, d_mgga_c_rppscan);
  (f_mgga_c_rregtm, d_mgga_c_rregtm); (f_mgga_c_rscan, d_mgga_c_rscan);
  (f_mgga_c_scan, d_mgga_c_scan); (f_mgga_k_gea2, d_mgga_k_gea2); (f_mgga_k_gea4, d_mgga_k_gea4);
  (f_mgga_k_pgslb, d_mgga_k_pgslb); (f_mgga_x_2d_js17, d_mgga_x_2d_js17);
  (f_mgga_x_gdme, d_mgga_x_gdme); (f_mgga_x_gvt4, d_mgga_x_gvt4); (f_mgga_x_lta, d_mgga_x_lta);
  (f_mgga_x_m06l, d_mgga_x_m06l); (f_mgga_x_m08, d_mgga_x_m08); (f_mgga_x_m11, d_mgga_x_m11);
  (f_mgga_x_m11_l, d_mgga_x_m11_l); (f_mgga_x_mbeef, d_mgga_x_mbeef);
  (f_mgga_x_mbeefvdw, d_mgga_x_mbeefvdw); (f_mgga_x_mcml, d_mgga_x_mcml);
  (f_mgga_x_mn12, d_mgga_x_mn12); (f_mgga_x_mvs, d_mgga_x_mvs);
  (f_mgga_x_tau_hcth, d_mgga_x_tau_hcth); (f_mgga_x_th, d_mgga_x_th);
  (f_mgga_x_vcml, d_mgga_x_vcml); (f_mgga_xc_b97mv, d_mgga_xc_b97mv);
  (f_mgga_xc_b98, d_mgga_xc_b98); (f_mgga_xc_lp90, d_mgga_xc_lp90); (f_mgga_xc_zlp, d_mgga_xc_zlp)].
Lemma swap_exact_functionals_weak : Forall (fun p => spin_symmetric (fst p)) swap_exact_functionals.
Proof.
  apply (Forall_pick _ _ swap_exact_functionals fst [
  0; 85; 169; 1; 86; 2; 87; 88; 172; 4; 89; 173; 5; 90; 6; 91; 175; 7; 92; 8; 93; 9; 94; 178; 10;
  95; 179; 11; 96; 12; 97; 181; 13; 182; 14; 99; 183; 15; 100; 184; 101; 185; 17; 102; 186; 18;
  103; 187; 19; 104; 188; 20; 105; 189; 21; 106; 190; 22; 107; 191; 253; 23; 108; 192; 24; 109;
  193; 110; 194; 111; 195; 27; 196; 28; 113; 197; 29; 114; 198; 30; 115; 199; 31; 116; 200; 32;
  117; 201; 33; 202; 34; 119; 203; 35; 120; 204; 36; 121; 205; 37; 206; 38; 123; 207; 39; 124;
  208; 40; 125; 209; 41; 210; 127; 43; 128; 212; 44; 129; 45; 130; 214; 46; 131; 215; 47; 132;
  48; 133; 217; 49; 134; 218; 50; 135; 51; 136; 52; 137; 221; 53; 138; 139; 223; 55; 140; 224;
  56; 141; 225; 57; 142; 58; 143; 59; 60; 145; 61; 146; 63; 148; 232; 64; 66; 151; 152; 68; 70;
  155; 156; 240; 72; 157; 241; 254; 73; 255; 243; 244; 81; 166; 256; 251; 83; 252; 84]%nat swap_holds). reflexivity.
Qed.
Lemma swap_exact_functionals_def_pol : Forall (fun p => defined_pol (snd p) (fst p)) swap_exact_functionals.
Proof.
  apply (Forall_pick _ _ swap_exact_functionals (fun p => p) [
  0; 1; 2; 3; 4; 5; 6; 7; 8; 9; 10; 11; 12; 13; 14; 15; 16; 17; 18; 19; 20; 21; 22; 23; 24; 25;
  26; 27; 28; 29; 30; 31; 32; 33; 34; 35; 36; 37; 38; 39; 40; 41; 42; 43; 44; 45; 46; 47; 48; 49;
  50; 51; 52; 53; 54; 55; 56; 57; 58; 59; 60; 61; 62; 63; 64; 65; 66; 67; 68; 69; 70; 71; 72; 73;
  74; 75; 76; 77; 78; 79; 80; 81; 82; 83; 84; 85; 86; 87; 88; 89; 90; 91; 92; 93; 94; 95; 96; 97;
  98; 99; 100; 101; 102; 103; 104; 105; 106; 107; 108; 109; 110; 111; 112; 113; 114; 115; 116;
  117; 118; 119; 120; 121; 122; 123; 124; 125; 126; 127; 128; 129; 130; 131; 132; 133; 134; 135;
  136; 137; 138; 139; 140; 141; 142; 143; 144; 145; 146; 147; 148; 149; 150; 151; 152; 153; 154;
  155; 156; 157; 158; 159; 160; 161; 162; 163; 164; 165; 166; 167; 168; 169; 170; 171; 172; 173;
  174; 175; 176; 177; 178; 179; 180; 181; 182; 183; 184]%nat defined_pol_functionals_holds). reflexivity.
Qed.
Lemma swap_exact_functionals_holds : Forall (fun p => spin_symmetric_exact (snd p) (fst p)) swap_exact_functionals.
Proof.
  apply Forall_forall. intros p H.
  exact (swap_exact (snd p) (fst p) (proj1 (Forall_forall _ _) swap_exact_functionals_def_pol p H) (proj1 (Forall_forall _ _) swap_exact_functionals_weak p H)).
Qed.

Lemma swap_exact_functionals_ready : Forall (fun p => ready (snd p) (fst p)) swap_exact_functionals.
Proof.
  apply (Forall_pick _ _ swap_exact_functionals (fun p => p) [
  0; 1; 2; 3; 4; 6; 7; 8; 9; 10; 11; 12; 13; 14; 15; 16; 17; 18; 19; 20; 21; 22; 23; 24; 25; 26;
  27; 28; 29; 31; 32; 33; 34; 35; 36; 37; 38; 39; 40; 41; 42; 43; 44; 45; 46; 47; 48; 49; 50; 51;
  52; 53; 54; 55; 56; 57; 58; 59; 60; 61; 62; 63; 64; 65; 66; 67; 68; 69; 70; 71; 72; 73; 74; 75;
  76; 77; 78; 79; 80; 81; 82; 83; 84; 85; 86; 87; 88; 89; 90; 91; 92; 93; 94; 95; 96; 97; 98; 99;
  100; 101; 102; 103; 104; 105; 106; 107; 108; 109; 110; 111; 112; 113; 114; 115; 116; 117; 118;
  119; 120; 121; 122; 123; 124; 125; 126; 127; 128; 129; 130; 131; 132; 133; 134; 135; 136; 137;
  138; 139; 140; 141; 142; 143; 144; 145; 146; 147; 148; 149; 150; 151; 152; 153; 154; 155; 156;
  157; 158; 159; 160; 161; 162; 163; 164; 165; 166; 167; 168; 169; 170; 171; 172; 173; 174; 175;
  176; 177; 178; 179; 180; 181; 182; 183; 184; 185; 186]%nat ready_functionals_holds). reflexivity.
Qed.
Lemma swap_exact_functionals_library : Forall (fun p => spin_symmetric_library (snd p) (fst p)) swap_exact_functionals.
Proof.
  apply Forall_forall. intros p H. destruct (proj1 (Forall_forall _ _) swap_exact_functionals_ready p H) as [U RF].
  exact (swap_library (snd p) (fst p) U (proj1 (Forall_forall _ _) swap_exact_functionals_holds p H)).
Qed.

Definition scale1_exact_functionals : list (source * domain) := [
  (f_gga_x_airy, d_gga_x_airy); (f_gga_x_ak13, d_gga_x_ak13); (f_gga_x_am05, d_gga_x_am05);
  (f_gga_x_b86, d_gga_x_b86); (f_gga_x_b88, d_gga_x_b88); (f_gga_x_bayesian, d_gga_x_bayesian);
  (f_gga_x_beefvdw, d_gga_x_beefvdw); (f_gga_x_bpccac, d_gga_x_bpccac);
  (f_gga_x_c09x, d_gga_x_c09x); (f_gga_x_cap, d_gga_x_cap); (f_gga_x_chachiyo, d_gga_x_chachiyo);
  (f_gga_x_dk87, d_gga_x_dk87); (f_gga_x_ev93, d_gga_x_ev93); (f_gga_x_g96, d_gga_x_g96);
  (f_gga_x_hcth_a, d_gga_x_hcth_a); (f_gga_x_herman, d_gga_x_herman);
  (f_gga_x_htbs, d_gga_x_htbs); (f_gga_x_lag, d_gga_x_lag); (f_gga_x_lg93, d_gga_x_lg93);
  (f_gga_x_lspbe, d_gga_x_lspbe); (f_gga_x_lsrpbe, d_gga_x_lsrpbe);
  (f_gga_x_lv_rpw86, d_gga_x_lv_rpw86); (f_gga_x_mpbe, d_gga_x_mpbe);
  (f_gga_x_ncap, d_gga_x_ncap); (f_gga_x_ol2, d_gga_x_ol2); (f_gga_x_optx, d_gga_x_optx);
  (f_gga_x_pbe, d_gga_x_pbe); (f_gga_x_pbea, d_gga_x_pbea); (f_gga_x_pbepow, d_gga_x_pbepow);
  (f_gga_x_pbetrans, d_gga_x_pbetrans); (f_gga_x_pw86, d_gga_x_pw86);
  (f_gga_x_pw91, d_gga_x_pw91); (f_gga_x_q1d, d_gga_x_q1d); (f_gga_x_q2d, d_gga_x_q2d);
  (f_gga_x_rge2, d_gga_x_rge2); (f_gga_x_rpbe, d_gga_x_rpbe); (f_gga_x_s12, d_gga_x_s12);
  (f_gga_x_sogga11, d_gga_x_sogga11); (f_gga_x_ssb_sw, d_gga_x_ssb_sw);
  (f_gga_x_vmt, d_gga_x_vmt); (f_gga_x_vmt84, d_gga_x_vmt84); (f_gga_x_wc, d_gga_x_wc);
  (f_hyb_mgga_x_dldf, d_hyb_mgga_x_dldf); (f_hyb_mgga_x_m05, d_hyb_mgga_x_m05);
  (f_lda_x, d_lda_x); (f_mgga_x_gdme, d_mgga_x_gdme); (f_mgga_x_gvt4, d_mgga_x_gvt4);
  (f_mgga_x_lta, d_mgga_x_lta); (f_mgga_x_m06l, d_mgga_x_m06l); (f_mgga_x_m08, d_mgga_x_m08);
  (f_mgga_x_mbeef, d_mgga_x_mbeef); (f_mgga_x_mbeefvdw, d_mgga_x_mbeefvdw);
  (f_mgga_x_mcml, d_mgga_x_mcml); (f_mgga_x_mvs, d_mgga_x_mvs);
  (f_mgga_x_tau_hcth, d_mgga_x_tau_hcth); (f_mgga_x_th, d_mgga_x_th);
  (f_mgga_x_vcml, d_mgga_x_vcml)].
Lemma scale1_exact_functionals_weak : Forall (fun p => scales_with 1 (fst p)) scale1_exact_functionals.
Proof.
  apply (Forall_pick _ _ scale1_exact_functionals fst [
  0; 1; 2; 3; 4; 5; 6; 7; 8; 9; 10; 11; 12; 14; 16; 17; 18; 19; 21; 22; 23; 24; 25; 26; 27; 28;
  29; 30; 32; 33; 34; 35; 36; 37; 38; 39; 40; 42; 43; 44; 45; 46; 47; 48; 49; 54; 55; 58; 59; 60;
  61; 62; 66; 70; 85; 87; 90]%nat scale1_holds). reflexivity.
Qed.
Lemma scale1_exact_functionals_def_pol : Forall (fun p => defined_pol (snd p) (fst p)) scale1_exact_functionals.
Proof.
  apply (Forall_pick _ _ scale1_exact_functionals (fun p => p) [
  54; 55; 56; 57; 58; 59; 60; 61; 62; 63; 64; 65; 66; 68; 69; 70; 72; 77; 78; 79; 80; 81; 82; 84;
  85; 86; 87; 88; 89; 90; 91; 92; 93; 94; 95; 96; 97; 100; 101; 102; 103; 104; 112; 113; 140;
  166; 167; 168; 169; 170; 173; 174; 175; 177; 178; 179; 180]%nat defined_pol_functionals_holds). reflexivity.
Qed.
Lemma scale1_exact_functionals_holds : Forall (fun p => scales_exact 1 (snd p) (fst p)) scale1_exact_functionals.
Proof.
  apply Forall_forall. intros p H.
  exact (scale_exact (snd p) (fst p) (proj1 (Forall_forall _ _) scale1_exact_functionals_def_pol p H) 1 (proj1 (Forall_forall _ _) scale1_exact_functionals_weak p H)).
Qed.

Lemma scale1_exact_functionals_ready : Forall (fun p => ready (snd p) (fst p)) scale1_exact_functionals.
Proof.
  apply (Forall_pick _ _ scale1_exact_functionals (fun p => p) [
  56; 57; 58; 59; 60; 61; 62; 63; 64; 65; 66; 67; 68; 70; 71; 72; 74; 79; 80; 81; 82; 83; 84; 86;
  87; 88; 89; 90; 91; 92; 93; 94; 95; 96; 97; 98; 99; 102; 103; 104; 105; 106; 114; 115; 142;
  168; 169; 170; 171; 172; 175; 176; 177; 179; 180; 181; 182]%nat ready_functionals_holds). reflexivity.
Qed.
Lemma scale1_exact_functionals_library : Forall (fun p => scales_library 1 (snd p) (fst p)) scale1_exact_functionals.
Proof.
  apply Forall_forall. intros p H. destruct (proj1 (Forall_forall _ _) scale1_exact_functionals_ready p H) as [U RF].
  exact (scale_library (snd p) (fst p) U 1 (proj1 (Forall_forall _ _) scale1_exact_functionals_holds p H)).
Qed.

Definition scale2_exact_functionals : list (source * domain) := [
  (f_gga_k_apbe, d_gga_k_apbe); (f_gga_k_dk, d_gga_k_dk); (f_gga_k_exp4, d_gga_k_exp4);
  (f_gga_k_lc94, d_gga_k_lc94); (f_gga_k_lgap, d_gga_k_lgap); (f_gga_k_lgap_ge, d_gga_k_lgap_ge);
  (f_gga_k_lkt, d_gga_k_lkt); (f_gga_k_llp, d_gga_k_llp); (f_gga_k_mpbe, d_gga_k_mpbe);
  (f_gga_k_ol1, d_gga_k_ol1); (f_gga_k_ol2, d_gga_k_ol2); (f_gga_k_pearson, d_gga_k_pearson);
  (f_gga_k_pg, d_gga_k_pg); (f_gga_k_pw86, d_gga_k_pw86);
  (f_gga_k_rational_p, d_gga_k_rational_p); (f_gga_k_tflw, d_gga_k_tflw);
  (f_gga_k_thakkar, d_gga_k_thakkar); (f_gga_k_vt84f, d_gga_k_vt84f); (f_lda_k_tf, d_lda_k_tf);
  (f_mgga_k_gea2, d_mgga_k_gea2); (f_mgga_k_gea4, d_mgga_k_gea4); (f_mgga_k_pgslb, d_mgga_k_pgslb)].
Lemma scale2_exact_functionals_weak : Forall (fun p => scales_with 2 (fst p)) scale2_exact_functionals.
Proof.
  apply (Forall_pick _ _ scale2_exact_functionals fst [
  0; 2; 3; 4; 5; 6; 7; 8; 10; 11; 12; 13; 14; 15; 16; 17; 18; 19; 20; 23; 24; 27]%nat scale2_holds). reflexivity.
Qed.
Lemma scale2_exact_functionals_def_pol : Forall (fun p => defined_pol (snd p) (fst p)) scale2_exact_functionals.
Proof.
  apply (Forall_pick _ _ scale2_exact_functionals (fun p => p) [
  32; 33; 34; 35; 36; 37; 38; 39; 40; 41; 42; 43; 44; 45; 46; 47; 48; 49; 138; 162; 163; 164]%nat defined_pol_functionals_holds). reflexivity.
Qed.
Lemma scale2_exact_functionals_holds : Forall (fun p => scales_exact 2 (snd p) (fst p)) scale2_exact_functionals.
Proof.
  apply Forall_forall. intros p H.
  exact (scale_exact (snd p) (fst p) (proj1 (Forall_forall _ _) scale2_exact_functionals_def_pol p H) 2 (proj1 (Forall_forall _ _) scale2_exact_functionals_weak p H)).
Qed.

Lemma scale2_exact_functionals_ready : Forall (fun p => ready (snd p) (fst p)) scale2_exact_functionals.
Proof.
  apply (Forall_pick _ _ scale2_exact_functionals (fun p => p) [
  34; 35; 36; 37; 38; 39; 40; 41; 42; 43; 44; 45; 46; 47; 48; 49; 50; 51; 140; 164; 165; 166]%nat ready_functionals_holds). reflexivity.
Qed.
Lemma scale2_exact_functionals_library : Forall (fun p => scales_library 2 (snd p) (fst p)) scale2_exact_functionals.
Proof.
  apply Forall_forall. intros p H. destruct (proj1 (Forall_forall _ _) scale2_exact_functionals_ready p H) as [U RF].
  exact (scale_library (snd p) (fst p) U 2 (proj1 (Forall_forall _ _) scale2_exact_functionals_holds p H)).
Qed.

Definition spin_exact_functionals : list (source * domain) := [
  (f_gga_k_apbe, d_gga_k_apbe); (f_gga_k_dk, d_gga_k_dk); (f_gga_k_lc94, d_gga_k_lc94);
  (f_gga_k_lgap, d_gga_k_lgap); (f_gga_k_lgap_ge, d_gga_k_lgap_ge); (f_gga_k_lkt, d_gga_k_lkt);
  (f_gga_k_llp, d_gga_k_llp); (f_gga_k_mpbe, d_gga_k_mpbe); (f_gga_k_ol1, d_gga_k_ol1);
  (f_gga_k_ol2, d_gga_k_ol2); (f_gga_k_pearson, d_gga_k_pearson); (f_gga_k_pg, d_gga_k_pg);
  (f_gga_k_pw86, d_gga_k_pw86); (f_gga_k_rational_p, d_gga_k_rational_p);
  (f_gga_k_tflw, d_gga_k_tflw); (f_gga_k_thakkar, d_gga_k_thakkar);
  (f_gga_k_vt84f, d_gga_k_vt84f); (f_gga_x_2d_b86, d_gga_x_2d_b86);
  (f_gga_x_2d_b86_mgc, d_gga_x_2d_b86_mgc); (f_gga_x_2d_b88, d_gga_x_2d_b88);
  (f_gga_x_2d_pbe, d_gga_x_2d_pbe); (f_gga_x_airy, d_gga_x_airy); (f_gga_x_ak13, d_gga_x_ak13);
  (f_gga_x_am05, d_gga_x_am05); (f_gga_x_b86, d_gga_x_b86); (f_gga_x_b88, d_gga_x_b88);
  (f_gga_x_bayesian, d_gga_x_bayesian); (f_gga_x_beefvdw, d_gga_x_beefvdw);
  (f_gga_x_c09x, d_gga_x_c09x); (f_gga_x_cap, d_gga_x_cap); (f_gga_x_chachiyo, d_gga_x_chachiyo);
  (f_gga_x_dk87, d_gga_x_dk87); (f_gga_x_ev93, d_gga_x_ev93); (f_gga_x_ft97, d_gga_x_ft97);
  (f_gga_x_g96, d_gga_x_g96); (f_gga_x_hcth_a, d_gga_x_hcth_a); (f_gga_x_herman, d_gga_x_herman);
  (f_gga_x_hjs, d_gga_x_hjs); (f_gga_x_ityh, d_gga_x_ityh);
  (f_gga_x_ityh_optx, d_gga_x_ityh_optx); (f_gga_x_ityh_pbe, d_gga_x_ityh_pbe);
  (f_gga_x_kt, d_gga_x_kt); (f_gga_x_lag, d_gga_x_lag); (f_gga_x_lspbe, d_gga_x_lspbe);
  (f_gga_x_lsrpbe, d_gga_x_lsrpbe); (f_gga_x_mpbe, d_gga_x_mpbe); (f_gga_x_n12, d_gga_x_n12);
  (f_gga_x_ncap, d_gga_x_ncap); (f_gga_x_ol2, d_gga_x_ol2); (f_gga_x_optx, d_gga_x_optx);
  (f_gga_x_pbe, d_gga_x_pbe); (f_gga_x_pbea, d_gga_x_pbea); (f_gga_x_pbepow, d_gga_x_pbepow);
  (f_gga_x_pbetrans, d_gga_x_pbetrans); (f_gga_x_pw86, d_gga_x_pw86);
  (f_gga_x_pw91, d_gga_x_pw91); (f_gga_x_q1d, d_gga_x_q1d); (f_gga_x_q2d, d_gga_x_q2d);
  (f_gga_x_rpbe, d_gga_x_rpbe); (f_gga_x_s12, d_gga_x_s12); (f_gga_x_sfat, d_gga_x_sfat);
  (f_gga_x_sfat_pbe, d_gga_x_sfat_pbe); (f_gga_x_sogga11, d_gga_x_sogga11);
  (f_gga_x_ssb_sw, d_gga_x_ssb_sw); (f_gga_x_vmt, d_gga_x_vmt); (f_gga_x_vmt84, d_gga_x_vmt84);
  (f_gga_x_wc, d_gga_x_wc); (f_gga_x_wpbeh, d_gga_x_wpbeh);
  (f_hyb_gga_x_cam_s12, d_hyb_gga_x_cam_s12); (f_hyb_mgga_x_dldf, d_hyb_mgga_x_dldf);
  (f_hyb_mgga_x_m05, d_hyb_mgga_x_m05); (f_hyb_mgga_x_pjs18, d_hyb_mgga_x_pjs18);
  (f_lda_k_gds08_worker, d_lda_k_gds08_worker); (f_lda_k_tf, d_lda_k_tf); (f_lda_x, d_lda_x);
  (f_lda_x_2d, d_lda_x_2d); (f_lda_x_erf, d_lda_x_erf); (f_lda_x_yukawa, d_lda_x_yukawa);
  (f_mgga_k_gea2, d_mgga_k_gea2); (f_mgga_k_gea4, d_mgga_k_gea4);
  (f_mgga_k_pgslb, d_mgga_k_pgslb); (f_mgga_x_gdme, d_mgga_x_gdme);
  (f_mgga_x_gvt4, d_mgga_x_gvt4); (f_mgga_x_lta, d_mgga_x_lta); (f_mgga_x_m06l, d_mgga_x_m06l);
  (f_mgga_x_m08, d_mgga_x_m08); (f_mgga_x_m11, d_mgga_x_m11); (f_mgga_x_m11_l, d_mgga_x_m11_l);
  (f_mgga_x_mbeef, d_mgga_x_mbeef); (f_mgga_x_mbeefvdw, d_mgga_x_mbeefvdw);
  (f_mgga_x_mcml, d_mgga_x_mcml); (f_mgga_x_mn12, d_mgga_x_mn12); (f_mgga_x_mvs, d_mgga_x_mvs);
  (f_mgga_x_tau_hcth, d_mgga_x_tau_hcth); (f_mgga_x_th, d_mgga_x_th);
  (f_mgga_x_vcml, d_mgga_x_vcml)].
Lemma spin_exact_functionals_weak : Forall (fun p => spin_scales (fst p)) spin_exact_functionals.
Proof.
  apply (Forall_pick _ _ spin_exact_functionals fst [
  0; 90; 1; 46; 91; 2; 47; 3; 48; 93; 4; 49; 94; 5; 50; 95; 6; 51; 96; 7; 52; 97; 8; 53; 98; 9;
  54; 134; 99; 10; 55; 100; 11; 101; 12; 102; 13; 58; 14; 59; 104; 15; 60; 105; 16; 61; 106; 17;
  62; 107; 18; 63; 19; 64; 109; 20; 65; 110; 21; 66; 111; 22; 67; 112; 23; 68; 113; 24; 69; 114;
  70; 115; 26; 135; 71; 136; 72; 117; 118; 29; 30; 77; 122; 123; 34; 79; 124; 35; 137; 80; 138;
  37; 38; 43; 88; 139]%nat spin_holds). reflexivity.
Qed.
Lemma spin_exact_functionals_def_pol : Forall (fun p => defined_pol (snd p) (fst p)) spin_exact_functionals.
Proof.
  apply (Forall_pick _ _ spin_exact_functionals (fun p => p) [
  32; 33; 35; 36; 37; 38; 39; 40; 41; 42; 43; 44; 45; 46; 47; 48; 49; 50; 51; 52; 53; 54; 55; 56;
  57; 58; 59; 60; 62; 63; 64; 65; 66; 67; 68; 69; 70; 71; 73; 74; 75; 76; 77; 79; 80; 82; 83; 84;
  85; 86; 87; 88; 89; 90; 91; 92; 93; 94; 96; 97; 98; 99; 100; 101; 102; 103; 104; 105; 110; 112;
  113; 114; 137; 138; 140; 141; 142; 145; 162; 163; 164; 166; 167; 168; 169; 170; 171; 172; 173;
  174; 175; 176; 177; 178; 179; 180]%nat defined_pol_functionals_holds). reflexivity.
Qed.
Lemma spin_exact_functionals_def_unpol : Forall (fun p => defined_unpol (snd p) (fst p)) spin_exact_functionals.
Proof.
  apply (Forall_pick _ _ spin_exact_functionals (fun p => p) [
  34; 35; 37; 38; 39; 40; 41; 42; 43; 44; 45; 46; 47; 48; 49; 50; 51; 52; 53; 54; 55; 56; 57; 58;
  59; 60; 61; 62; 64; 65; 66; 67; 68; 69; 70; 71; 72; 73; 75; 76; 77; 78; 79; 81; 82; 84; 85; 86;
  87; 88; 89; 90; 91; 92; 93; 94; 95; 96; 98; 99; 100; 101; 102; 103; 104; 105; 106; 107; 112;
  114; 115; 116; 139; 140; 142; 143; 144; 147; 164; 165; 166; 168; 169; 170; 171; 172; 173; 174;
  175; 176; 177; 178; 179; 180; 181; 182]%nat defined_unpol_functionals_holds). reflexivity.
Qed.
Lemma spin_exact_functionals_holds : Forall (fun p => spin_scales_exact (snd p) (fst p)) spin_exact_functionals.
Proof.
  apply Forall_forall. intros p H.
  exact (spin_exact (snd p) (fst p) (proj1 (Forall_forall _ _) spin_exact_functionals_def_pol p H) (proj1 (Forall_forall _ _) spin_exact_functionals_def_unpol p H) (proj1 (Forall_forall _ _) spin_exact_functionals_weak p H)).
Qed.

Lemma spin_exact_functionals_ready : Forall (fun p => ready (snd p) (fst p)) spin_exact_functionals.
Proof.
  apply (Forall_pick _ _ spin_exact_functionals (fun p => p) [
  34; 35; 37; 38; 39; 40; 41; 42; 43; 44; 45; 46; 47; 48; 49; 50; 51; 52; 53; 54; 55; 56; 57; 58;
  59; 60; 61; 62; 64; 65; 66; 67; 68; 69; 70; 71; 72; 73; 75; 76; 77; 78; 79; 81; 82; 84; 85; 86;
  87; 88; 89; 90; 91; 92; 93; 94; 95; 96; 98; 99; 100; 101; 102; 103; 104; 105; 106; 107; 112;
  114; 115; 116; 139; 140; 142; 143; 144; 147; 164; 165; 166; 168; 169; 170; 171; 172; 173; 174;
  175; 176; 177; 178; 179; 180; 181; 182]%nat ready_functionals_holds). reflexivity.
Qed.
Lemma spin_exact_functionals_library : Forall (fun p => spin_scales_library (snd p) (fst p)) spin_exact_functionals.
Proof.
  apply Forall_forall. intros p H. destruct (proj1 (Forall_forall _ _) spin_exact_functionals_ready p H) as [U RF].
  exact (spin_library (snd p) (fst p) U (proj1 (Forall_forall _ _) spin_exact_functionals_holds p H)).
Qed.

Definition scrp_exact_functionals : list (source * domain) := [
  (f_gga_c_op_b88, d_gga_c_op_b88); (f_gga_c_op_g96, d_gga_c_op_g96);
  (f_gga_c_op_pbe, d_gga_c_op_pbe); (f_gga_c_op_xalpha, d_gga_c_op_xalpha);
  (f_gga_k_apbe, d_gga_k_apbe); (f_gga_k_dk, d_gga_k_dk); (f_gga_k_exp4, d_gga_k_exp4);
  (f_gga_k_lc94, d_gga_k_lc94); (f_gga_k_lgap, d_gga_k_lgap); (f_gga_k_lgap_ge, d_gga_k_lgap_ge);
  (f_gga_k_lkt, d_gga_k_lkt); (f_gga_k_llp, d_gga_k_llp); (f_gga_k_mpbe, d_gga_k_mpbe);
  (f_gga_k_ol1, d_gga_k_ol1); (f_gga_k_ol2, d_gga_k_ol2); (f_gga_k_pearson, d_gga_k_pearson);
  (f_gga_k_pg, d_gga_k_pg); (f_gga_k_pw86, d_gga_k_pw86);
  (f_gga_k_rational_p, d_gga_k_rational_p); (f_gga_k_tflw, d_gga_k_tflw);
  (f_gga_k_thakkar, d_gga_k_thakkar); (f_gga_k_vt84f, d_gga_k_vt84f);
  (f_gga_x_2d_b86, d_gga_x_2d_b86); (f_gga_x_2d_b86_mgc, d_gga_x_2d_b86_mgc);
  (f_gga_x_2d_b88, d_gga_x_2d_b88); (f_gga_x_2d_pbe, d_gga_x_2d_pbe);
  (f_gga_x_airy, d_gga_x_airy); (f_gga_x_ak13, d_gga_x_ak13); (f_gga_x_am05, d_gga_x_am05);
  (f_gga_x_b86, d_gga_x_b86); (f_gga_x_b88, d_gga_x_b88); (f_gga_x_bayesian, d_gga_x_bayesian);
  (f_gga_x_beefvdw, d_gga_x_beefvdw); (f_gga_x_bpccac, d_gga_x_bpccac);
  (f_gga_x_c09x, d_gga_x_c09x); (f_gga_x_cap, d_gga_x_cap); (f_gga_x_chachiyo, d_gga_x_chachiyo);
  (f_gga_x_dk87, d_gga_x_dk87); (f_gga_x_ev93, d_gga_x_ev93); (f_gga_x_ft97, d_gga_x_ft97);
  (f_gga_x_g96, d_gga_x_g96); (f_gga_x_hcth_a, d_gga_x_hcth_a); (f_gga_x_herman, d_gga_x_herman);
  (f_gga_x_hjs, d_gga_x_hjs); (f_gga_x_htbs, d_gga_x_htbs); (f_gga_x_ityh, d_gga_x_ityh);
  (f_gga_x_ityh_optx, d_gga_x_ityh_optx); (f_gga_x_ityh_pbe, d_gga_x_ityh_pbe);
  (f_gga_x_kt, d_gga_x_kt); (f_gga_x_lag, d_gga_x_lag); (f_gga_x_lg93, d_gga_x_lg93);
  (f_gga_x_lspbe, d_gga_x_lspbe); (f_gga_x_lsrpbe, d_gga_x_lsrpbe);
  (f_gga_x_lv_rpw86, d_gga_x_lv_rpw86); (f_gga_x_mpbe, d_gga_x_mpbe); (f_gga_x_n12, d_gga_x_n12);
  (f_gga_x_ncap, d_gga_x_ncap); (f_gga_x_ol2, d_gga_x_ol2); (f_gga_x_optx, d_gga_x_optx);
  (f_gga_x_pbe, d_gga_x_pbe); (f_gga_x_pbea, d_gga_x_pbea); (f_gga_x_pbetrans, d_gga_x_pbetrans);
  (f_gga_x_pw86, d_gga_x_pw86); (f_gga_x_pw91, d_gga_x_pw91); (f_gga_x_q1d, d_gga_x_q1d);
  (f_gga_x_q2d, d_gga_x_q2d); (f_gga_x_rge2, d_gga_x_rge2); (f_gga_x_rpbe, d_gga_x_rpbe);
  (f_gga_x_s12, d_gga_x_s12); (f_gga_x_sfat, d_gga_x_sfat); (f_gga_x_sfat_pbe, d_gga_x_sfat_pbe);
  (f_gga_x_sogga11, d_gga_x_sogga11); (f_gga_x_ssb_sw, d_gga_x_ssb_sw);
  (f_gga_x_vmt, d_gga_x_vmt); (f_gga_x_vmt84, d_gga_x_vmt84); (f_gga_x_wc, d_gga_x_wc);
  (f_hyb_gga_x_cam_s12, d_hyb_gga_x_cam_s12); (f_hyb_mgga_x_dldf, d_hyb_mgga_x_dldf);
  (f_hyb_mgga_x_m05, d_hyb_mgga_x_m05); (f_lda_k_gds08_worker, d_lda_k_gds08_worker);
  (f_lda_x, d_lda_x); (f_lda_x_rel, d_lda_x_rel); (f_mgga_c_b88, d_mgga_c_b88);
  (f_mgga_k_gea2, d_mgga_k_gea2); (f_mgga_k_gea4, d_mgga_k_gea4);
  (f_mgga_k_pgslb, d_mgga_k_pgslb); (f_mgga_x_2d_js17, d_mgga_x_2d_js17);
  (f_mgga_x_gdme, d_mgga_x_gdme); (f_mgga_x_gvt4, d_mgga_x_gvt4); (f_mgga_x_lta, d_mgga_x_lta);
  (f_mgga_x_m06l, d_mgga_x_m06l); (f_mgga_x_m08, d_mgga_x_m08); (f_mgga_x_m11, d_mgga_x_m11);
  (f_mgga_x_m11_l, d_mgga_x_m11_l); (f_mgga_x_mbeefvdw, d_mgga_x_mbeefvdw);
  (f_mgga_x_mn12, d_mgga_x_mn12); (f_mgga_x_mvs, d_mgga_x_mvs);
  (f_mgga_x_tau_hcth, d_mgga_x_tau_hcth); (f_mgga_x_th, d_mgga_x_th)].
Lemma scrp_exact_functionals_weak : Forall (fun p => screened_pol (fst p)) scrp_exact_functionals.
Proof.
  apply (Forall_pick _ _ scrp_exact_functionals fst [
  0; 1; 2; 4; 5; 7; 8; 9; 10; 11; 12; 13; 15; 16; 17; 18; 19; 20; 21; 22; 23; 24; 25; 26; 27; 28;
  29; 30; 31; 32; 33; 34; 35; 36; 37; 38; 39; 40; 41; 43; 44; 46; 47; 48; 50; 51; 52; 53; 54; 55;
  56; 57; 58; 59; 60; 61; 62; 63; 64; 65; 66; 68; 69; 70; 71; 72; 73; 74; 75; 76; 77; 79; 80; 81;
  82; 83; 84; 85; 86; 87; 88; 91; 92; 96; 97; 100; 102; 108; 109; 112; 113; 114; 115; 116; 117;
  122; 125; 140; 141]%nat scrp_holds). reflexivity.
Qed.
Lemma scrp_exact_functionals_def_pol : Forall (fun p => defined_pol (snd p) (fst p)) scrp_exact_functionals.
Proof.
  apply (Forall_pick _ _ scrp_exact_functionals (fun p => p) [
  11; 12; 13; 14; 32; 33; 34; 35; 36; 37; 38; 39; 40; 41; 42; 43; 44; 45; 46; 47; 48; 49; 50; 51;
  52; 53; 54; 55; 56; 57; 58; 59; 60; 61; 62; 63; 64; 65; 66; 67; 68; 69; 70; 71; 72; 73; 74; 75;
  76; 77; 78; 79; 80; 81; 82; 83; 84; 85; 86; 87; 88; 90; 91; 92; 93; 94; 95; 96; 97; 98; 99;
  100; 101; 102; 103; 104; 110; 112; 113; 137; 140; 143; 150; 162; 163; 164; 165; 166; 167; 168;
  169; 170; 171; 172; 174; 176; 177; 178; 179]%nat defined_pol_functionals_holds). reflexivity.
Qed.
Lemma scrp_exact_functionals_holds : Forall (fun p => screened_pol_exact (snd p) (fst p)) scrp_exact_functionals.
Proof.
  apply Forall_forall. intros p H.
  exact (screen_pol_exact (snd p) (fst p) (proj1 (Forall_forall _ _) scrp_exact_functionals_def_pol p H) (proj1 (Forall_forall _ _) scrp_exact_functionals_weak p H)).
Qed.

Definition scru_exact_functionals : list (source * domain) := [
  (f_gga_c_op_b88, d_gga_c_op_b88); (f_gga_c_op_g96, d_gga_c_op_g96);
  (f_gga_c_op_pbe, d_gga_c_op_pbe); (f_gga_c_op_xalpha, d_gga_c_op_xalpha);
  (f_gga_k_apbe, d_gga_k_apbe); (f_gga_k_dk, d_gga_k_dk); (f_gga_k_exp4, d_gga_k_exp4);
  (f_gga_k_lc94, d_gga_k_lc94); (f_gga_k_lgap, d_gga_k_lgap); (f_gga_k_lgap_ge, d_gga_k_lgap_ge);
  (f_gga_k_lkt, d_gga_k_lkt); (f_gga_k_llp, d_gga_k_llp); (f_gga_k_mpbe, d_gga_k_mpbe);
  (f_gga_k_ol1, d_gga_k_ol1); (f_gga_k_ol2, d_gga_k_ol2); (f_gga_k_pearson, d_gga_k_pearson);
  (f_gga_k_pg, d_gga_k_pg); (f_gga_k_pw86, d_gga_k_pw86);
  (f_gga_k_rational_p, d_gga_k_rational_p); (f_gga_k_tflw, d_gga_k_tflw);
  (f_gga_k_thakkar, d_gga_k_thakkar); (f_gga_k_vt84f, d_gga_k_vt84f);
  (f_gga_x_2d_b86, d_gga_x_2d_b86); (f_gga_x_2d_b86_mgc, d_gga_x_2d_b86_mgc);
  (f_gga_x_2d_b88, d_gga_x_2d_b88); (f_gga_x_2d_pbe, d_gga_x_2d_pbe);
  (f_gga_x_airy, d_gga_x_airy); (f_gga_x_ak13, d_gga_x_ak13); (f_gga_x_am05, d_gga_x_am05);
  (f_gga_x_b86, d_gga_x_b86); (f_gga_x_b88, d_gga_x_b88); (f_gga_x_bayesian, d_gga_x_bayesian);
  (f_gga_x_beefvdw, d_gga_x_beefvdw); (f_gga_x_bpccac, d_gga_x_bpccac);
  (f_gga_x_c09x, d_gga_x_c09x); (f_gga_x_cap, d_gga_x_cap); (f_gga_x_chachiyo, d_gga_x_chachiyo);
  (f_gga_x_dk87, d_gga_x_dk87); (f_gga_x_ev93, d_gga_x_ev93); (f_gga_x_ft97, d_gga_x_ft97);
  (f_gga_x_g96, d_gga_x_g96); (f_gga_x_hcth_a, d_gga_x_hcth_a); (f_gga_x_herman, d_gga_x_herman);
  (f_gga_x_hjs, d_gga_x_hjs); (f_gga_x_htbs, d_gga_x_htbs); (f_gga_x_ityh, d_gga_x_ityh);
  (f_gga_x_ityh_optx, d_gga_x_ityh_optx); (f_gga_x_ityh_pbe, d_gga_x_ityh_pbe);
  (f_gga_x_kt, d_gga_x_kt); (f_gga_x_lag, d_gga_x_lag); (f_gga_x_lg93, d_gga_x_lg93);
  (f_gga_x_lspbe, d_gga_x_lspbe); (f_gga_x_lsrpbe, d_gga_x_lsrpbe);
  (f_gga_x_lv_rpw86, d_gga_x_lv_rpw86); (f_gga_x_mpbe, d_gga_x_mpbe); (f_gga_x_n12, d_gga_x_n12);
  (f_gga_x_ncap, d_gga_x_ncap); (f_gga_x_ol2, d_gga_x_ol2); (f_gga_x_optx, d_gga_x_optx);
  (f_gga_x_pbe, d_gga_x_pbe); (f_gga_x_pbea, d_gga_x_pbea); (f_gga_x_pbetrans, d_gga_x_pbetrans);
  (f_gga_x_pw86, d_gga_x_pw86); (f_gga_x_pw91, d_gga_x_pw91); (f_gga_x_q1d, d_gga_x_q1d);
  (f_gga_x_q2d, d_gga_x_q2d); (f_gga_x_rge2, d_gga_x_rge2); (f_gga_x_rpbe, d_gga_x_rpbe);
  (f_gga_x_s12, d_gga_x_s12); (f_gga_x_sfat, d_gga_x_sfat); (f_gga_x_sfat_pbe, d_gga_x_sfat_pbe);
  (f_gga_x_sogga11, d_gga_x_sogga11); (f_gga_x_ssb_sw, d_gga_x_ssb_sw);
  (f_gga_x_vmt, d_gga_x_vmt); (f_gga_x_vmt84, d_gga_x_vmt84); (f_gga_x_wc, d_gga_x_wc);
  (f_hyb_gga_x_cam_s12, d_hyb_gga_x_cam_s12); (f_hyb_mgga_x_dldf, d_hyb_mgga_x_dldf);
  (f_hyb_mgga_x_m05, d_hyb_mgga_x_m05); (f_lda_k_gds08_worker, d_lda_k_gds08_worker);
  (f_lda_x, d_lda_x); (f_lda_x_rel, d_lda_x_rel); (f_mgga_c_b88, d_mgga_c_b88);
  (f_mgga_k_gea2, d_mgga_k_gea2); (f_mgga_k_gea4, d_mgga_k_gea4);
  (f_mgga_k_pgslb, d_mgga_k_pgslb); (f_mgga_x_2d_js17, d_mgga_x_2d_js17);
  (f_mgga_x_gdme, d_mgga_x_gdme); (f_mgga_x_gvt4, d_mgga_x_gvt4); (f_mgga_x_lta, d_mgga_x_lta);
  (f_mgga_x_m06l, d_mgga_x_m06l); (f_mgga_x_m08, d_mgga_x_m08); (f_mgga_x_m11, d_mgga_x_m11);
  (f_mgga_x_m11_l, d_mgga_x_m11_l); (f_mgga_x_mbeef, d_mgga_x_mbeef);
  (f_mgga_x_mbeefvdw, d_mgga_x_mbeefvdw); (f_mgga_x_mcml, d_mgga_x_mcml);
  (f_mgga_x_mn12, d_mgga_x_mn12); (f_mgga_x_mvs, d_mgga_x_mvs);
  (f_mgga_x_tau_hcth, d_mgga_x_tau_hcth); (f_mgga_x_th, d_mgga_x_th);
  (f_mgga_x_vcml, d_mgga_x_vcml)].
Lemma scru_exact_functionals_weak : Forall (fun p => screened_unpol (fst p)) scru_exact_functionals.
Proof.
  apply (Forall_pick _ _ scru_exact_functionals fst [
  0; 1; 2; 4; 5; 7; 8; 9; 10; 11; 12; 13; 15; 16; 17; 18; 19; 20; 21; 22; 23; 24; 25; 26; 27; 28;
  29; 30; 31; 32; 33; 34; 35; 36; 37; 38; 39; 40; 41; 43; 44; 46; 47; 48; 50; 51; 52; 53; 54; 55;
  56; 57; 58; 59; 60; 61; 62; 63; 64; 65; 66; 68; 69; 70; 71; 72; 73; 74; 75; 76; 77; 79; 80; 81;
  82; 83; 84; 85; 86; 87; 88; 91; 92; 96; 97; 100; 102; 108; 109; 112; 113; 114; 115; 116; 117;
  118; 122; 124; 127; 142; 143; 146]%nat scru_holds). reflexivity.
Qed.
Lemma scru_exact_functionals_def_unpol : Forall (fun p => defined_unpol (snd p) (fst p)) scru_exact_functionals.
Proof.
  apply (Forall_pick _ _ scru_exact_functionals (fun p => p) [
  12; 13; 14; 15; 34; 35; 36; 37; 38; 39; 40; 41; 42; 43; 44; 45; 46; 47; 48; 49; 50; 51; 52; 53;
  54; 55; 56; 57; 58; 59; 60; 61; 62; 63; 64; 65; 66; 67; 68; 69; 70; 71; 72; 73; 74; 75; 76; 77;
  78; 79; 80; 81; 82; 83; 84; 85; 86; 87; 88; 89; 90; 92; 93; 94; 95; 96; 97; 98; 99; 100; 101;
  102; 103; 104; 105; 106; 112; 114; 115; 139; 142; 145; 152; 164; 165; 166; 167; 168; 169; 170;
  171; 172; 173; 174; 175; 176; 177; 178; 179; 180; 181; 182]%nat defined_unpol_functionals_holds). reflexivity.
Qed.
Lemma scru_exact_functionals_holds : Forall (fun p => screened_unpol_exact (snd p) (fst p)) scru_exact_functionals.
Proof.
  apply Forall_forall. intros p H.
  exact (screen_unpol_exact (snd p) (fst p) (proj1 (Forall_forall _ _) scru_exact_functionals_def_unpol p H) (proj1 (Forall_forall _ _) scru_exact_functionals_weak p H)).
Qed.

Definition uniform_x_exact_functionals : list (source * domain) := [
  (f_gga_x_airy, d_gga_x_airy); (f_gga_x_ak13, d_gga_x_ak13); (f_gga_x_am05, d_gga_x_am05);
  (f_gga_x_b86, d_gga_x_b86); (f_gga_x_b88, d_gga_x_b88); (f_gga_x_bpccac, d_gga_x_bpccac);
  (f_gga_x_c09x, d_gga_x_c09x); (f_gga_x_cap, d_gga_x_cap); (f_gga_x_dk87, d_gga_x_dk87);
  (f_gga_x_ev93, d_gga_x_ev93); (f_gga_x_ft97, d_gga_x_ft97); (f_gga_x_g96, d_gga_x_g96);
  (f_gga_x_herman, d_gga_x_herman); (f_gga_x_htbs, d_gga_x_htbs); (f_gga_x_kt, d_gga_x_kt);
  (f_gga_x_lg93, d_gga_x_lg93); (f_gga_x_lspbe, d_gga_x_lspbe); (f_gga_x_lsrpbe, d_gga_x_lsrpbe);
  (f_gga_x_lv_rpw86, d_gga_x_lv_rpw86); (f_gga_x_mpbe, d_gga_x_mpbe);
  (f_gga_x_ncap, d_gga_x_ncap); (f_gga_x_pbe, d_gga_x_pbe); (f_gga_x_pbea, d_gga_x_pbea);
  (f_gga_x_pbetrans, d_gga_x_pbetrans); (f_gga_x_pw86, d_gga_x_pw86); (f_gga_x_q1d, d_gga_x_q1d);
  (f_gga_x_q2d, d_gga_x_q2d); (f_gga_x_rge2, d_gga_x_rge2); (f_gga_x_rpbe, d_gga_x_rpbe);
  (f_gga_x_vmt, d_gga_x_vmt); (f_gga_x_wc, d_gga_x_wc); (f_mgga_x_lta, d_mgga_x_lta);
  (f_mgga_x_mvs, d_mgga_x_mvs); (f_mgga_x_th, d_mgga_x_th)].
Lemma uniform_x_exact_functionals_weak : Forall (fun p => uniform_limit slater_energy [] (fst p)) uniform_x_exact_functionals.
Proof.
  apply (Forall_pick _ _ uniform_x_exact_functionals fst [
  0; 1; 2; 3; 4; 5; 6; 7; 8; 9; 11; 12; 13; 14; 15; 16; 17; 18; 19; 20; 21; 22; 23; 25; 26; 27;
  28; 29; 30; 32; 34; 37; 40; 47]%nat uniform_x_holds). reflexivity.
Qed.
Lemma uniform_x_exact_functionals_def_pol : Forall (fun p => defined_pol (snd p) (fst p)) uniform_x_exact_functionals.
Proof.
  apply (Forall_pick _ _ uniform_x_exact_functionals (fun p => p) [
  54; 55; 56; 57; 58; 61; 62; 63; 65; 66; 67; 68; 70; 72; 76; 78; 79; 80; 81; 82; 84; 87; 88; 90;
  91; 93; 94; 95; 96; 102; 104; 168; 177; 179]%nat defined_pol_functionals_holds). reflexivity.
Qed.
Lemma uniform_x_exact_functionals_level : Forall (fun p => is_pos (d_level (snd p)) = false) uniform_x_exact_functionals.
Proof. repeat (constructor; [reflexivity|]). constructor. Qed.
Lemma uniform_x_exact_functionals_holds : Forall (fun p => uniform_exact slater_energy (snd p) (fst p)) uniform_x_exact_functionals.
Proof.
  apply Forall_forall. intros p H.
  exact (unif_exact slater_energy (snd p) (fst p) (proj1 (Forall_forall _ _) uniform_x_exact_functionals_level p H) (proj1 (Forall_forall _ _) uniform_x_exact_functionals_def_pol p H) (proj1 (Forall_forall _ _) uniform_x_exact_functionals_weak p H)).
Qed.

Lemma uniform_x_exact_functionals_ready : Forall (fun p => ready (snd p) (fst p)) uniform_x_exact_functionals.
Proof.
  apply (Forall_pick _ _ uniform_x_exact_functionals (fun p => p) [
  56; 57; 58; 59; 60; 63; 64; 65; 67; 68; 69; 70; 72; 74; 78; 80; 81; 82; 83; 84; 86; 89; 90; 92;
  93; 95; 96; 97; 98; 104; 106; 170; 179; 181]%nat ready_functionals_holds). reflexivity.
Qed.
Lemma uniform_x_exact_functionals_library : Forall (fun p => uniform_library slater_energy (snd p) (fst p)) uniform_x_exact_functionals.
Proof.
  apply Forall_forall. intros p H. destruct (proj1 (Forall_forall _ _) uniform_x_exact_functionals_ready p H) as [U RF].
  exact (unif_library (snd p) (fst p) U slater_energy RF (proj1 (Forall_forall _ _) uniform_x_exact_functionals_holds p H)).
Qed.

Definition uniform_k_exact_functionals : list (source * domain) := [
  (f_gga_k_apbe, d_gga_k_apbe); (f_gga_k_lgap, d_gga_k_lgap); (f_gga_k_lgap_ge, d_gga_k_lgap_ge);
  (f_gga_k_llp, d_gga_k_llp); (f_gga_k_mpbe, d_gga_k_mpbe); (f_gga_k_ol1, d_gga_k_ol1);
  (f_gga_k_pearson, d_gga_k_pearson); (f_gga_k_pg, d_gga_k_pg); (f_gga_k_pw86, d_gga_k_pw86);
  (f_gga_k_rational_p, d_gga_k_rational_p); (f_gga_k_thakkar, d_gga_k_thakkar);
  (f_gga_k_vt84f, d_gga_k_vt84f); (f_mgga_k_gea2, d_mgga_k_gea2); (f_mgga_k_gea4, d_mgga_k_gea4);
  (f_mgga_k_pgslb, d_mgga_k_pgslb)].
Lemma uniform_k_exact_functionals_weak : Forall (fun p => uniform_limit tf_energy [] (fst p)) uniform_k_exact_functionals.
Proof.
  apply (Forall_pick _ _ uniform_k_exact_functionals fst [
  0; 2; 3; 4; 5; 6; 7; 8; 9; 10; 11; 12; 15; 16; 18]%nat uniform_k_holds). reflexivity.
Qed.
Lemma uniform_k_exact_functionals_def_pol : Forall (fun p => defined_pol (snd p) (fst p)) uniform_k_exact_functionals.
Proof.
  apply (Forall_pick _ _ uniform_k_exact_functionals (fun p => p) [
  32; 36; 37; 39; 40; 41; 43; 44; 45; 46; 48; 49; 162; 163; 164]%nat defined_pol_functionals_holds). reflexivity.
Qed.
Lemma uniform_k_exact_functionals_level : Forall (fun p => is_pos (d_level (snd p)) = false) uniform_k_exact_functionals.
Proof. repeat (constructor; [reflexivity|]). constructor. Qed.
Lemma uniform_k_exact_functionals_holds : Forall (fun p => uniform_exact tf_energy (snd p) (fst p)) uniform_k_exact_functionals.
Proof.
  apply Forall_forall. intros p H.
  exact (unif_exact tf_energy (snd p) (fst p) (proj1 (Forall_forall _ _) uniform_k_exact_functionals_level p H) (proj1 (Forall_forall _ _) uniform_k_exact_functionals_def_pol p H) (proj1 (Forall_forall _ _) uniform_k_exact_functionals_weak p H)).
Qed.

Lemma uniform_k_exact_functionals_ready : Forall (fun p => ready (snd p) (fst p)) uniform_k_exact_functionals.
Proof.
  apply (Forall_pick _ _ uniform_k_exact_functionals (fun p => p) [
  34; 38; 39; 41; 42; 43; 45; 46; 47; 48; 50; 51; 164; 165; 166]%nat ready_functionals_holds). reflexivity.
Qed.
Lemma uniform_k_exact_functionals_library : Forall (fun p => uniform_library tf_energy (snd p) (fst p)) uniform_k_exact_functionals.
Proof.
  apply Forall_forall. intros p H. destruct (proj1 (Forall_forall _ _) uniform_k_exact_functionals_ready p H) as [U RF].
  exact (unif_library (snd p) (fst p) U tf_energy RF (proj1 (Forall_forall _ _) uniform_k_exact_functionals_holds p H)).
Qed.

Definition number_functionals : list (source * domain) := [
  (f_gga_c_acgga, d_gga_c_acgga); (f_gga_c_acggap, d_gga_c_acggap); (f_gga_c_am05, d_gga_c_am05);
  (f_gga_c_bmk, d_gga_c_bmk); (f_gga_c_ccdf, d_gga_c_ccdf); (f_gga_c_cs1, d_gga_c_cs1);
  (f_gga_c_ft97, d_gga_c_ft97); (f_gga_c_hcth_a, d_gga_c_hcth_a); (f_gga_c_lm, d_gga_c_lm);
  (f_gga_c_lyp, d_gga_c_lyp); (f_gga_c_lypr, d_gga_c_lypr); (f_gga_c_op_b88, d_gga_c_op_b88);
  (f_gga_c_op_g96, d_gga_c_op_g96); (f_gga_c_op_pbe, d_gga_c_op_pbe);
  (f_gga_c_op_xalpha, d_gga_c_op_xalpha); (f_gga_c_optc, d_gga_c_optc);
  (f_gga_c_p86, d_gga_c_p86); (f_gga_c_p86vwn, d_gga_c_p86vwn); (f_gga_c_pbe, d_gga_c_pbe);
  (f_gga_c_pbeloc, d_gga_c_pbeloc); (f_gga_c_pw91, d_gga_c_pw91);
  (f_gga_c_regtpss, d_gga_c_regtpss); (f_gga_c_revtca, d_gga_c_revtca);
  (f_gga_c_scan_e0, d_gga_c_scan_e0); (f_gga_c_sg4, d_gga_c_sg4);
  (f_gga_c_sogga11, d_gga_c_sogga11); (f_gga_c_tca, d_gga_c_tca); (f_gga_c_w94, d_gga_c_w94);
  (f_gga_c_wi, d_gga_c_wi); (f_gga_c_zpbeint, d_gga_c_zpbeint);
  (f_gga_c_zvpbeint, d_gga_c_zvpbeint); (f_gga_c_zvpbeloc, d_gga_c_zvpbeloc);
  (f_gga_k_apbe, d_gga_k_apbe); (f_gga_k_dk, d_gga_k_dk); (f_gga_k_exp4, d_gga_k_exp4);
  (f_gga_k_lc94, d_gga_k_lc94); (f_gga_k_lgap, d_gga_k_lgap); (f_gga_k_lgap_ge, d_gga_k_lgap_ge);
  (f_gga_k_lkt, d_gga_k_lkt); (f_gga_k_llp, d_gga_k_llp); (f_gga_k_mpbe, d_gga_k_mpbe);
  (f_gga_k_ol1, d_gga_k_ol1); (f_gga_k_ol2, d_gga_k_ol2); (f_gga_k_pearson, d_gga_k_pearson);
  (f_gga_k_pg, d_gga_k_pg); (f_gga_k_pw86, d_gga_k_pw86);
  (f_gga_k_rational_p, d_gga_k_rational_p); (f_gga_k_tflw, d_gga_k_tflw);
  (f_gga_k_thakkar, d_gga_k_thakkar); (f_gga_k_vt84f, d_gga_k_vt84f);
  (f_gga_x_2d_b86, d_gga_x_2d_b86); (f_gga_x_2d_b86_mgc, d_gga_x_2d_b86_mgc);
  (f_gga_x_2d_b88, d_gga_x_2d_b88); (f_gga_x_2d_pbe, d_gga_x_2d_pbe);
  (f_gga_x_airy, d_gga_x_airy); (f_gga_x_ak13, d_gga_x_ak13); (f_gga_x_am05, d_gga_x_am05);
  (f_gga_x_b86, d_gga_x_b86); (f_gga_x_b88, d_gga_x_b88); (f_gga_x_bayesian, d_gga_x_bayesian);
  (f_gga_x_beefvdw, d_gga_x_beefvdw); (f_gga_x_bpccac, d_gga_x_bpccac);
  (f_gga_x_c09x, d_gga_x_c09x); (f_gga_x_cap, d_gga_x_cap); (f_gga_x_chachiyo, d_gga_x_chachiyo);
  (f_gga_x_dk87, d_gga_x_dk87); (f_gga_x_ev93, d_gga_x_ev93); (f_gga_x_ft97, d_gga_x_ft97);
  (f_gga_x_g96, d_gga_x_g96); (f_gga_x_hcth_a, d_gga_x_hcth_a); (f_gga_x_herman, d_gga_x_herman);
  (f_gga_x_hjs, d_gga_x_hjs); (f_gga_x_htbs, d_gga_x_htbs); (f_gga_x_ityh, d_gga_x_ityh);
  (f_gga_x_ityh_optx, d_gga_x_ityh_optx); (f_gga_x_ityh_pbe, d_gga_x_ityh_pbe);
  (f_gga_x_kt, d_gga_x_kt); (f_gga_x_lag, d_gga_x_lag); (f_gga_x_lg93, d_gga_x_lg93);
  (f_gga_x_lspbe, d_gga_x_lspbe); (f_gga_x_lsrpbe, d_gga_x_lsrpbe);
  (f_gga_x_lv_rpw86, d_gga_x_lv_rpw86); (f_gga_x_mpbe, d_gga_x_mpbe); (f_gga_x_n12, d_gga_x_n12);
  (f_gga_x_ncap, d_gga_x_ncap); (f_gga_x_ol2, d_gga_x_ol2); (f_gga_x_optx, d_gga_x_optx);
  (f_gga_x_pbe, d_gga_x_pbe); (f_gga_x_pbea, d_gga_x_pbea); (f_gga_x_pbepow, d_gga_x_pbepow);
  (f_gga_x_pbetrans, d_gga_x_pbetrans); (f_gga_x_pw86, d_gga_x_pw86);
  (f_gga_x_pw91, d_gga_x_pw91); (f_gga_x_q1d, d_gga_x_q1d); (f_gga_x_q2d, d_gga_x_q2d);
  (f_gga_x_rge2, d_gga_x_rge2); (f_gga_x_rpbe, d_gga_x_rpbe); (f_gga_x_s12, d_gga_x_s12);
  (f_gga_x_sfat, d_gga_x_sfat); (f_gga_x_sfat_pbe, d_gga_x_sfat_pbe);
  (f_gga_x_sogga11, d_gga_x_sogga11); (f_gga_x_ssb_sw, d_gga_x_ssb_sw);
  (f_gga_x_vmt, d_gga_x_vmt); (f_gga_x_vmt84, d_gga_x_vmt84); (f_gga_x_wc, d_gga_x_wc);
  (f_gga_x_wpbeh, d_gga_x_wpbeh); (f_gga_xc_b97, d_gga_xc_b97); (f_gga_xc_th1, d_gga_xc_th1);
  (f_gga_xc_th2, d_gga_xc_th2); (f_gga_xc_th3, d_gga_xc_th3);
  (f_hyb_gga_x_cam_s12, d_hyb_gga_x_cam_s12); (f_hyb_gga_xc_wb97, d_hyb_gga_xc_wb97);
  (f_hyb_mgga_x_dldf, d_hyb_mgga_x_dldf); (f_hyb_mgga_x_m05, d_hyb_mgga_x_m05);
  (f_hyb_mgga_x_pjs18, d_hyb_mgga_x_pjs18); (f_hyb_mgga_xc_wb97mv, d_hyb_mgga_xc_wb97mv);
  (f_lda_c_1d_csc, d_lda_c_1d_csc); (f_lda_c_1d_loos, d_lda_c_1d_loos);
  (f_lda_c_2d_prm, d_lda_c_2d_prm); (f_lda_c_chachiyo, d_lda_c_chachiyo);
  (f_lda_c_chachiyo_mod, d_lda_c_chachiyo_mod); (f_lda_c_gk72, d_lda_c_gk72);
  (f_lda_c_gombas, d_lda_c_gombas); (f_lda_c_hl, d_lda_c_hl); (f_lda_c_lp96, d_lda_c_lp96);
  (f_lda_c_ml1, d_lda_c_ml1); (f_lda_c_pmgb06, d_lda_c_pmgb06); (f_lda_c_pw, d_lda_c_pw);
  (f_lda_c_pz, d_lda_c_pz); (f_lda_c_rc04, d_lda_c_rc04); (f_lda_c_rpa, d_lda_c_rpa);
  (f_lda_c_vwn, d_lda_c_vwn); (f_lda_c_vwn_1, d_lda_c_vwn_1); (f_lda_c_vwn_2, d_lda_c_vwn_2);
  (f_lda_c_vwn_4, d_lda_c_vwn_4); (f_lda_c_vwn_rpa, d_lda_c_vwn_rpa);
  (f_lda_c_wigner, d_lda_c_wigner); (f_lda_k_gds08_worker, d_lda_k_gds08_worker);
  (f_lda_k_tf, d_lda_k_tf); (f_lda_k_zlp, d_lda_k_zlp); (f_lda_x, d_lda_x);
  (f_lda_x_2d, d_lda_x_2d); (f_lda_x_erf, d_lda_x_erf); (f_lda_x_rel, d_lda_x_rel);
  (f_lda_x_sloc, d_lda_x_sloc); (f_lda_x_yukawa, d_lda_x_yukawa);
  (f_lda_xc_1d_ehwlrg, d_lda_xc_1d_ehwlrg); (f_lda_xc_teter93, d_lda_xc_teter93);
  (f_lda_xc_tih, d_lda_xc_tih); (f_lda_xc_zlp, d_lda_xc_zlp); (f_mgga_c_b88, d_mgga_c_b88);
  (f_mgga_c_bc95, d_mgga_c_bc95); (f_mgga_c_cc, d_mgga_c_cc); (f_mgga_c_cs, d_mgga_c_cs);
  (f_mgga_c_ltapw, d_mgga_c_ltapw); (f_mgga_c_m05, d_mgga_c_m05); (f_mgga_c_m08, d_mgga_c_m08);
  (f_mgga_c_pkzb, d_mgga_c_pkzb); (f_mgga_c_rppscan, d_mgga_c_rppscan);
  (f_mgga_c_rregtm, d_mgga_c_rregtm); (f_mgga_c_rscan, d_mgga_c_rscan);
  (f_mgga_c_scan, d_mgga_c_scan); (f_mgga_k_gea2, d_mgga_k_gea2); (f_mgga_k_gea4, d_mgga_k_gea4);
  (f_mgga_k_pgslb, d_mgga_k_pgslb); (f_mgga_x_2d_js17, d_mgga_x_2d_js17);
  (f_mgga_x_gdme, d_mgga_x_gdme); (f_mgga_x_gvt4, d_mgga_x_gvt4); (f_mgga_x_lta, d_mgga_x_lta);
  (f_mgga_x_m06l, d_mgga_x_m06l); (f_mgga_x_m08, d_mgga_x_m08); (f_mgga_x_m11, d_mgga_x_m11);
  (f_mgga_x_m11_l, d_mgga_x_m11_l); (f_mgga_x_mbeef, d_mgga_x_mbeef);
  (f_mgga_x_mbeefvdw, d_mgga_x_mbeefvdw); (f_mgga_x_mcml, d_mgga_x_mcml);
  (f_mgga_x_mn12, d_mgga_x_mn12); (f_mgga_x_mvs, d_mgga_x_mvs);
  (f_mgga_x_tau_hcth, d_mgga_x_tau_hcth); (f_mgga_x_th, d_mgga_x_th);
  (f_mgga_x_vcml, d_mgga_x_vcml); (f_mgga_xc_b97mv, d_mgga_xc_b97mv);
  (f_mgga_xc_b98, d_mgga_xc_b98); (f_mgga_xc_lp90, d_mgga_xc_lp90); (f_mgga_xc_zlp, d_mgga_xc_zlp)].
Lemma number_functionals_part0 : Forall (fun p => defined_pol (snd p) (fst p)) number_functionals.
Proof.
  apply (Forall_pick _ _ number_functionals (fun p => p) [
  0; 1; 2; 3; 4; 5; 6; 7; 8; 9; 10; 11; 12; 13; 14; 15; 16; 17; 18; 19; 20; 21; 22; 23; 24; 25;
  26; 27; 28; 29; 30; 31; 32; 33; 34; 35; 36; 37; 38; 39; 40; 41; 42; 43; 44; 45; 46; 47; 48; 49;
  50; 51; 52; 53; 54; 55; 56; 57; 58; 59; 60; 61; 62; 63; 64; 65; 66; 67; 68; 69; 70; 71; 72; 73;
  74; 75; 76; 77; 78; 79; 80; 81; 82; 83; 84; 85; 86; 87; 88; 89; 90; 91; 92; 93; 94; 95; 96; 97;
  98; 99; 100; 101; 102; 103; 104; 105; 106; 107; 108; 109; 110; 111; 112; 113; 114; 115; 116;
  117; 118; 119; 120; 121; 122; 123; 124; 125; 126; 127; 128; 129; 130; 131; 132; 133; 134; 135;
  136; 137; 138; 139; 140; 141; 142; 143; 144; 145; 146; 147; 148; 149; 150; 151; 152; 153; 154;
  155; 156; 157; 158; 159; 160; 161; 162; 163; 164; 165; 166; 167; 168; 169; 170; 171; 172; 173;
  174; 175; 176; 177; 178; 179; 180; 181; 182; 183; 184]%nat defined_pol_functionals_holds). reflexivity.
Qed.
Lemma number_functionals_part1 : Forall (fun p => defined_unpol (snd p) (fst p)) number_functionals.
Proof.
  apply (Forall_pick _ _ number_functionals (fun p => p) [
  0; 1; 2; 3; 4; 6; 7; 8; 9; 10; 11; 12; 13; 14; 15; 16; 17; 18; 19; 20; 21; 22; 23; 24; 25; 26;
  27; 28; 29; 31; 32; 33; 34; 35; 36; 37; 38; 39; 40; 41; 42; 43; 44; 45; 46; 47; 48; 49; 50; 51;
  52; 53; 54; 55; 56; 57; 58; 59; 60; 61; 62; 63; 64; 65; 66; 67; 68; 69; 70; 71; 72; 73; 74; 75;
  76; 77; 78; 79; 80; 81; 82; 83; 84; 85; 86; 87; 88; 89; 90; 91; 92; 93; 94; 95; 96; 97; 98; 99;
  100; 101; 102; 103; 104; 105; 106; 107; 108; 109; 110; 111; 112; 113; 114; 115; 116; 117; 118;
  119; 120; 121; 122; 123; 124; 125; 126; 127; 128; 129; 130; 131; 132; 133; 134; 135; 136; 137;
  138; 139; 140; 141; 142; 143; 144; 145; 146; 147; 148; 149; 150; 151; 152; 153; 154; 155; 156;
  157; 158; 159; 160; 161; 162; 163; 164; 165; 166; 167; 168; 169; 170; 171; 172; 173; 174; 175;
  176; 177; 178; 179; 180; 181; 182; 183; 184; 185; 186]%nat defined_unpol_functionals_holds). reflexivity.
Qed.
Lemma number_functionals_part2 : Forall (fun p => ready (snd p) (fst p)) number_functionals.
Proof.
  apply (Forall_pick _ _ number_functionals (fun p => p) [
  0; 1; 2; 3; 4; 6; 7; 8; 9; 10; 11; 12; 13; 14; 15; 16; 17; 18; 19; 20; 21; 22; 23; 24; 25; 26;
  27; 28; 29; 31; 32; 33; 34; 35; 36; 37; 38; 39; 40; 41; 42; 43; 44; 45; 46; 47; 48; 49; 50; 51;
  52; 53; 54; 55; 56; 57; 58; 59; 60; 61; 62; 63; 64; 65; 66; 67; 68; 69; 70; 71; 72; 73; 74; 75;
  76; 77; 78; 79; 80; 81; 82; 83; 84; 85; 86; 87; 88; 89; 90; 91; 92; 93; 94; 95; 96; 97; 98; 99;
  100; 101; 102; 103; 104; 105; 106; 107; 108; 109; 110; 111; 112; 113; 114; 115; 116; 117; 118;
  119; 120; 121; 122; 123; 124; 125; 126; 127; 128; 129; 130; 131; 132; 133; 134; 135; 136; 137;
  138; 139; 140; 141; 142; 143; 144; 145; 146; 147; 148; 149; 150; 151; 152; 153; 154; 155; 156;
  157; 158; 159; 160; 161; 162; 163; 164; 165; 166; 167; 168; 169; 170; 171; 172; 173; 174; 175;
  176; 177; 178; 179; 180; 181; 182; 183; 184; 185; 186]%nat ready_functionals_holds). reflexivity.
Qed.
Lemma number_functionals_holds : Forall (fun p => returns_number (snd p) (fst p)) number_functionals.
Proof.
  apply Forall_forall. intros p H. destruct (proj1 (Forall_forall _ _) number_functionals_part2 p H) as [U _].
  exact (number_library (snd p) (fst p) U (proj1 (Forall_forall _ _) number_functionals_part0 p H) (proj1 (Forall_forall _ _) number_functionals_part1 p H)).
Qed.

Definition nonpositive_functionals : list (source * domain) := [
  (f_gga_x_2d_b86, n_gga_x_2d_b86); (f_gga_x_2d_b86_mgc, n_gga_x_2d_b86_mgc);
  (f_gga_x_2d_b88, n_gga_x_2d_b88); (f_gga_x_2d_pbe, n_gga_x_2d_pbe);
  (f_gga_x_ak13, n_gga_x_ak13); (f_gga_x_b86, n_gga_x_b86); (f_gga_x_b88, n_gga_x_b88);
  (f_gga_x_bayesian, n_gga_x_bayesian); (f_gga_x_c09x, n_gga_x_c09x);
  (f_gga_x_chachiyo, n_gga_x_chachiyo); (f_gga_x_dk87, n_gga_x_dk87);
  (f_gga_x_ev93, n_gga_x_ev93); (f_gga_x_ft97, n_gga_x_ft97); (f_gga_x_g96, n_gga_x_g96);
  (f_gga_x_herman, n_gga_x_herman); (f_gga_x_lag, n_gga_x_lag); (f_gga_x_lg93, n_gga_x_lg93);
  (f_gga_x_lv_rpw86, n_gga_x_lv_rpw86); (f_gga_x_mpbe, n_gga_x_mpbe); (f_gga_x_n12, n_gga_x_n12);
  (f_gga_x_ol2, n_gga_x_ol2); (f_gga_x_optx, n_gga_x_optx); (f_gga_x_pbe, n_gga_x_pbe);
  (f_gga_x_pbetrans, n_gga_x_pbetrans); (f_gga_x_pw86, n_gga_x_pw86);
  (f_gga_x_rge2, n_gga_x_rge2); (f_gga_x_rpbe, n_gga_x_rpbe); (f_gga_x_s12, n_gga_x_s12);
  (f_gga_x_sogga11, n_gga_x_sogga11); (f_gga_x_vmt, n_gga_x_vmt); (f_gga_x_wc, n_gga_x_wc);
  (f_lda_x, n_lda_x); (f_lda_x_2d, n_lda_x_2d); (f_lda_x_sloc, n_lda_x_sloc);
  (f_mgga_x_lta, n_mgga_x_lta); (f_mgga_x_th, n_mgga_x_th)].
Lemma nonpositive_functionals_part0 : Forall (fun p => nonpositive_pol (snd p) (fst p)) nonpositive_functionals.
Proof.
  apply (Forall_pick _ _ nonpositive_functionals (fun p => p) [
  0; 1; 2; 3; 4; 5; 6; 7; 8; 9; 10; 11; 12; 13; 14; 15; 16; 17; 18; 19; 20; 21; 22; 23; 24; 25;
  26; 27; 28; 29; 30; 31; 32; 33; 34; 35]%nat nonpositive_pol_functionals_holds). reflexivity.
Qed.
Lemma nonpositive_functionals_part1 : Forall (fun p => nonpositive_unpol (snd p) (fst p)) nonpositive_functionals.
Proof.
  apply (Forall_pick _ _ nonpositive_functionals (fun p => p) [
  0; 1; 2; 3; 4; 5; 6; 7; 8; 9; 10; 11; 12; 13; 14; 15; 16; 17; 18; 19; 20; 21; 22; 23; 24; 25;
  26; 27; 28; 29; 30; 31; 32; 33; 34; 35]%nat nonpositive_unpol_functionals_holds). reflexivity.
Qed.
Lemma nonpositive_functionals_part2 : Forall (fun p => ready (snd p) (fst p)) nonpositive_functionals.
Proof.
  apply (Forall_pick _ _ nonpositive_functionals (fun p => p) [
  0; 1; 2; 3; 4; 5; 6; 7; 8; 9; 10; 11; 12; 13; 14; 15; 16; 17; 18; 19; 20; 21; 22; 23; 24; 25;
  26; 27; 28; 29; 30; 31; 32; 33; 34; 35]%nat ready_nonpositive_functionals_holds). reflexivity.
Qed.
Lemma nonpositive_functionals_holds : Forall (fun p => returns_nonpositive (snd p) (fst p)) nonpositive_functionals.
Proof.
  apply Forall_forall. intros p H. destruct (proj1 (Forall_forall _ _) nonpositive_functionals_part2 p H) as [U _].
  exact (nonpositive_library (snd p) (fst p) U (proj1 (Forall_forall _ _) nonpositive_functionals_part0 p H) (proj1 (Forall_forall _ _) nonpositive_functionals_part1 p H)).
Qed.

