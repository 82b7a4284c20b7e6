(** Names read by the formulas of the domains: run of the check. Written by tools/gen_domains.py. *)
From Coq Require Import List.
From Verif Require Import Bytes Syntax Parser PostProcess Src Ast Semantics Records Inputs Interval Absint Defined Domains Library.
Import ListNotations.

Definition lib_list1 : list (compiled * domain) := [
  (a_gga_c_acgga, d_gga_c_acgga); (a_gga_c_acggap, d_gga_c_acggap); (a_gga_c_am05, d_gga_c_am05);
  (a_gga_c_bmk, d_gga_c_bmk); (a_gga_c_ccdf, d_gga_c_ccdf); (a_gga_c_chachiyo, d_gga_c_chachiyo);
  (a_gga_c_cs1, d_gga_c_cs1); (a_gga_c_ft97, d_gga_c_ft97); (a_gga_c_hcth_a, d_gga_c_hcth_a);
  (a_gga_c_lm, d_gga_c_lm); (a_gga_c_lyp, d_gga_c_lyp); (a_gga_c_lypr, d_gga_c_lypr);
  (a_gga_c_op_b88, d_gga_c_op_b88); (a_gga_c_op_g96, d_gga_c_op_g96);
  (a_gga_c_op_pbe, d_gga_c_op_pbe); (a_gga_c_op_xalpha, d_gga_c_op_xalpha);
  (a_gga_c_optc, d_gga_c_optc); (a_gga_c_p86, d_gga_c_p86); (a_gga_c_p86vwn, d_gga_c_p86vwn);
  (a_gga_c_pbe, d_gga_c_pbe); (a_gga_c_pbeloc, d_gga_c_pbeloc); (a_gga_c_pw91, d_gga_c_pw91);
  (a_gga_c_regtpss, d_gga_c_regtpss); (a_gga_c_revtca, d_gga_c_revtca);
  (a_gga_c_scan_e0, d_gga_c_scan_e0); (a_gga_c_sg4, d_gga_c_sg4);
  (a_gga_c_sogga11, d_gga_c_sogga11); (a_gga_c_tca, d_gga_c_tca); (a_gga_c_w94, d_gga_c_w94);
  (a_gga_c_wi, d_gga_c_wi); (a_gga_c_wl, d_gga_c_wl); (a_gga_c_zpbeint, d_gga_c_zpbeint);
  (a_gga_c_zvpbeint, d_gga_c_zvpbeint); (a_gga_c_zvpbeloc, d_gga_c_zvpbeloc);
  (a_gga_k_apbe, d_gga_k_apbe); (a_gga_k_dk, d_gga_k_dk); (a_gga_k_exp4, d_gga_k_exp4);
  (a_gga_k_lc94, d_gga_k_lc94); (a_gga_k_lgap, d_gga_k_lgap); (a_gga_k_lgap_ge, d_gga_k_lgap_ge);
  (a_gga_k_lkt, d_gga_k_lkt); (a_gga_k_llp, d_gga_k_llp); (a_gga_k_mpbe, d_gga_k_mpbe);
  (a_gga_k_ol1, d_gga_k_ol1); (a_gga_k_ol2, d_gga_k_ol2); (a_gga_k_pearson, d_gga_k_pearson);
  (a_gga_k_pg, d_gga_k_pg); (a_gga_k_pw86, d_gga_k_pw86);
  (a_gga_k_rational_p, d_gga_k_rational_p); (a_gga_k_tflw, d_gga_k_tflw);
  (a_gga_k_thakkar, d_gga_k_thakkar); (a_gga_k_vt84f, d_gga_k_vt84f);
  (a_gga_x_2d_b86, d_gga_x_2d_b86); (a_gga_x_2d_b86_mgc, d_gga_x_2d_b86_mgc);
  (a_gga_x_2d_b88, d_gga_x_2d_b88); (a_gga_x_2d_pbe, d_gga_x_2d_pbe);
  (a_gga_x_airy, d_gga_x_airy); (a_gga_x_ak13, d_gga_x_ak13); (a_gga_x_am05, d_gga_x_am05);
  (a_gga_x_b86, d_gga_x_b86); (a_gga_x_b88, d_gga_x_b88); (a_gga_x_bayesian, d_gga_x_bayesian);
  (a_gga_x_beefvdw, d_gga_x_beefvdw); (a_gga_x_bpccac, d_gga_x_bpccac);
  (a_gga_x_c09x, d_gga_x_c09x); (a_gga_x_cap, d_gga_x_cap); (a_gga_x_chachiyo, d_gga_x_chachiyo);
  (a_gga_x_dk87, d_gga_x_dk87); (a_gga_x_ev93, d_gga_x_ev93); (a_gga_x_ft97, d_gga_x_ft97);
  (a_gga_x_g96, d_gga_x_g96); (a_gga_x_hcth_a, d_gga_x_hcth_a); (a_gga_x_herman, d_gga_x_herman);
  (a_gga_x_hjs, d_gga_x_hjs); (a_gga_x_htbs, d_gga_x_htbs); (a_gga_x_ityh, d_gga_x_ityh);
  (a_gga_x_ityh_optx, d_gga_x_ityh_optx); (a_gga_x_ityh_pbe, d_gga_x_ityh_pbe);
  (a_gga_x_kt, d_gga_x_kt); (a_gga_x_lag, d_gga_x_lag); (a_gga_x_lg93, d_gga_x_lg93);
  (a_gga_x_lspbe, d_gga_x_lspbe); (a_gga_x_lsrpbe, d_gga_x_lsrpbe);
  (a_gga_x_lv_rpw86, d_gga_x_lv_rpw86); (a_gga_x_mpbe, d_gga_x_mpbe); (a_gga_x_n12, d_gga_x_n12);
  (a_gga_x_ncap, d_gga_x_ncap); (a_gga_x_ol2, d_gga_x_ol2); (a_gga_x_optx, d_gga_x_optx);
  (a_gga_x_pbe, d_gga_x_pbe); (a_gga_x_pbea, d_gga_x_pbea); (a_gga_x_pbepow, d_gga_x_pbepow);
  (a_gga_x_pbetrans, d_gga_x_pbetrans); (a_gga_x_pw86, d_gga_x_pw86);
  (a_gga_x_pw91, d_gga_x_pw91); (a_gga_x_q1d, d_gga_x_q1d); (a_gga_x_q2d, d_gga_x_q2d);
  (a_gga_x_rge2, d_gga_x_rge2); (a_gga_x_rpbe, d_gga_x_rpbe); (a_gga_x_s12, d_gga_x_s12);
  (a_gga_x_sfat, d_gga_x_sfat); (a_gga_x_sfat_pbe, d_gga_x_sfat_pbe);
  (a_gga_x_sogga11, d_gga_x_sogga11); (a_gga_x_ssb_sw, d_gga_x_ssb_sw);
  (a_gga_x_vmt, d_gga_x_vmt); (a_gga_x_vmt84, d_gga_x_vmt84); (a_gga_x_wc, d_gga_x_wc);
  (a_gga_x_wpbeh, d_gga_x_wpbeh); (a_gga_xc_b97, d_gga_xc_b97); (a_gga_xc_th1, d_gga_xc_th1);
  (a_gga_xc_th2, d_gga_xc_th2); (a_gga_xc_th3, d_gga_xc_th3);
  (a_hyb_gga_x_cam_s12, d_hyb_gga_x_cam_s12); (a_hyb_gga_xc_wb97, d_hyb_gga_xc_wb97);
  (a_hyb_mgga_x_dldf, d_hyb_mgga_x_dldf); (a_hyb_mgga_x_m05, d_hyb_mgga_x_m05);
  (a_hyb_mgga_x_pjs18, d_hyb_mgga_x_pjs18); (a_hyb_mgga_xc_wb97mv, d_hyb_mgga_xc_wb97mv);
  (a_lda_c_1d_csc, d_lda_c_1d_csc); (a_lda_c_1d_loos, d_lda_c_1d_loos);
  (a_lda_c_2d_prm, d_lda_c_2d_prm); (a_lda_c_chachiyo, d_lda_c_chachiyo);
  (a_lda_c_chachiyo_mod, d_lda_c_chachiyo_mod); (a_lda_c_gk72, d_lda_c_gk72);
  (a_lda_c_gombas, d_lda_c_gombas); (a_lda_c_hl, d_lda_c_hl); (a_lda_c_lp96, d_lda_c_lp96);
  (a_lda_c_ml1, d_lda_c_ml1); (a_lda_c_pmgb06, d_lda_c_pmgb06); (a_lda_c_pw, d_lda_c_pw);
  (a_lda_c_pz, d_lda_c_pz); (a_lda_c_rc04, d_lda_c_rc04); (a_lda_c_rpa, d_lda_c_rpa);
  (a_lda_c_vwn, d_lda_c_vwn); (a_lda_c_vwn_1, d_lda_c_vwn_1); (a_lda_c_vwn_2, d_lda_c_vwn_2);
  (a_lda_c_vwn_4, d_lda_c_vwn_4); (a_lda_c_vwn_rpa, d_lda_c_vwn_rpa);
  (a_lda_c_wigner, d_lda_c_wigner); (a_lda_k_gds08_worker, d_lda_k_gds08_worker);
  (a_lda_k_tf, d_lda_k_tf); (a_lda_k_zlp, d_lda_k_zlp); (a_lda_x, d_lda_x);
  (a_lda_x_2d, d_lda_x_2d); (a_lda_x_erf, d_lda_x_erf); (a_lda_x_rel, d_lda_x_rel);
  (a_lda_x_sloc, d_lda_x_sloc); (a_lda_x_yukawa, d_lda_x_yukawa);
  (a_lda_xc_1d_ehwlrg, d_lda_xc_1d_ehwlrg); (a_lda_xc_teter93, d_lda_xc_teter93);
  (a_lda_xc_tih, d_lda_xc_tih); (a_lda_xc_zlp, d_lda_xc_zlp); (a_mgga_c_b88, d_mgga_c_b88);
  (a_mgga_c_bc95, d_mgga_c_bc95); (a_mgga_c_cc, d_mgga_c_cc); (a_mgga_c_cs, d_mgga_c_cs);
  (a_mgga_c_ltapw, d_mgga_c_ltapw); (a_mgga_c_m05, d_mgga_c_m05); (a_mgga_c_m08, d_mgga_c_m08);
  (a_mgga_c_pkzb, d_mgga_c_pkzb); (a_mgga_c_rppscan, d_mgga_c_rppscan);
  (a_mgga_c_rregtm, d_mgga_c_rregtm); (a_mgga_c_rscan, d_mgga_c_rscan);
  (a_mgga_c_scan, d_mgga_c_scan); (a_mgga_k_gea2, d_mgga_k_gea2); (a_mgga_k_gea4, d_mgga_k_gea4);
  (a_mgga_k_pgslb, d_mgga_k_pgslb); (a_mgga_x_2d_js17, d_mgga_x_2d_js17);
  (a_mgga_x_gdme, d_mgga_x_gdme); (a_mgga_x_gvt4, d_mgga_x_gvt4); (a_mgga_x_lta, d_mgga_x_lta);
  (a_mgga_x_m06l, d_mgga_x_m06l); (a_mgga_x_m08, d_mgga_x_m08); (a_mgga_x_m11, d_mgga_x_m11);
  (a_mgga_x_m11_l, d_mgga_x_m11_l); (a_mgga_x_mbeef, d_mgga_x_mbeef);
  (a_mgga_x_mbeefvdw, d_mgga_x_mbeefvdw); (a_mgga_x_mcml, d_mgga_x_mcml);
  (a_mgga_x_mn12, d_mgga_x_mn12); (a_mgga_x_mvs, d_mgga_x_mvs);
  (a_mgga_x_tau_hcth, d_mgga_x_tau_hcth); (a_mgga_x_th, d_mgga_x_th);
  (a_mgga_x_vcml, d_mgga_x_vcml); (a_mgga_xc_b97mv, d_mgga_xc_b97mv);
  (a_mgga_xc_b98, d_mgga_xc_b98); (a_mgga_xc_lp90, d_mgga_xc_lp90); (a_mgga_xc_zlp, d_mgga_xc_zlp)].
Lemma lib_run1 : forallb (fun p => library_ok (snd p) (fst p)) lib_list1 = true.
Proof. vm_cast_no_check (eq_refl true). Qed.
Definition ready (d : domain) (f : source) : Prop :=
  usable d f /\ forall t, name_to_type (src_name f) = Impl.Ok t -> reads_family f t.
Lemma lib_all1 : Forall (fun p => ready (snd p) (c_src (fst p))) lib_list1.
Proof.
  apply Forall_forall. intros p H. pose proof lib_run1 as E. rewrite forallb_forall in E.
  specialize (E p H). split; [exact (library_sound _ _ E)|]. apply reads_family_sound. unfold library_ok in E.
  repeat (apply andb_prop in E; destruct E as [E _]). exact E.
Qed.
