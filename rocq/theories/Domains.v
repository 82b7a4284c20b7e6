(** The inputs on which each functional is shown to be defined. Written by
    tools/gen_domains.py. *)
From Coq Require Import List QArith.
From Verif Require Import Bytes Interval Absint Defined.
Import ListNotations.

Definition d_gga_c_acgga : domain := {| d_level := Gga false; d_pars := [("p.zeta_threshold"%b, SIn 0 (1#8))] |}.
Definition d_gga_c_acggap : domain := {| d_level := Gga false; d_pars := [("p.zeta_threshold"%b, SIn 0 (1#8))] |}.
Definition d_gga_c_am05 : domain := {| d_level := Gga false; d_pars := [("params.alpha"%b, SNonneg); ("params.gamma"%b, SAny)] |}.
Definition d_gga_c_bmk : domain := {| d_level := Gga false; d_pars := [("params.c_ab[0]"%b, SAny); ("params.c_ab[1]"%b, SAny); ("params.c_ab[2]"%b, SAny);
  ("params.c_ab[3]"%b, SAny); ("params.c_ab[4]"%b, SAny); ("params.c_ss[0]"%b, SAny);
  ("params.c_ss[1]"%b, SAny); ("params.c_ss[2]"%b, SAny); ("params.c_ss[3]"%b, SAny);
  ("params.c_ss[4]"%b, SAny)] |}.
Definition d_gga_c_ccdf : domain := {| d_level := Gga false; d_pars := [("params.c1"%b, SAny); ("params.c2"%b, SNonneg); ("params.c3"%b, SAny); ("params.c4"%b, SAny);
  ("params.c5"%b, SAny)] |}.
Definition d_gga_c_chachiyo : domain := {| d_level := Gga false; d_pars := [("params.bp"%b, SNonneg); ("params.cp"%b, SPos); ("params.ap"%b, SPos);
  ("params.bf"%b, SNonneg); ("params.cf"%b, SNonneg); ("params.af"%b, SAny); ("params.h"%b, SAny)] |}.
Definition d_gga_c_cs1 : domain := {| d_level := Gga false; d_pars := [] |}.
Definition d_gga_c_ft97 : domain := {| d_level := Gga false; d_pars := [] |}.
Definition d_gga_c_hcth_a : domain := {| d_level := Gga false; d_pars := [] |}.
Definition d_gga_c_lm : domain := {| d_level := Gga false; d_pars := [("params.lm_f"%b, SAny)] |}.
Definition d_gga_c_lyp : domain := {| d_level := Gga false; d_pars := [("params.a"%b, SAny); ("params.b"%b, SAny); ("params.c"%b, SAny); ("params.d"%b, SNonneg)] |}.
Definition d_gga_c_lypr : domain := {| d_level := Gga false; d_pars := [("params.a"%b, SAny); ("params.b"%b, SAny); ("params.c"%b, SAny); ("params.d"%b, SNonneg);
  ("params.m1"%b, SAny); ("params.m2"%b, SAny); ("params.omega"%b, SAny)] |}.
Definition d_gga_c_op_b88 : domain := {| d_level := Gga false; d_pars := [] |}.
Definition d_gga_c_op_g96 : domain := {| d_level := Gga false; d_pars := [] |}.
Definition d_gga_c_op_pbe : domain := {| d_level := Gga false; d_pars := [] |}.
Definition d_gga_c_op_xalpha : domain := {| d_level := Gga false; d_pars := [] |}.
Definition d_gga_c_optc : domain := {| d_level := Gga false; d_pars := [("p.zeta_threshold"%b, SIn 0 (1#8)); ("params.c2"%b, SAny); ("params.c1"%b, SAny)] |}.
Definition d_gga_c_p86 : domain := {| d_level := Gga false; d_pars := [("params.aa"%b, SNonneg); ("params.bb"%b, SPos); ("params.ftilde"%b, SAny);
  ("params.malpha"%b, SNonneg); ("params.mbeta"%b, SNonneg); ("params.mdelta"%b, SNonneg);
  ("params.mgamma"%b, SNonneg)] |}.
Definition d_gga_c_p86vwn : domain := {| d_level := Gga false; d_pars := [("params.aa"%b, SNonneg); ("params.bb"%b, SPos); ("params.ftilde"%b, SAny);
  ("params.malpha"%b, SNonneg); ("params.mbeta"%b, SNonneg); ("params.mdelta"%b, SNonneg);
  ("params.mgamma"%b, SNonneg)] |}.
Definition d_gga_c_pbe : domain := {| d_level := Gga false; d_pars := [("p.zeta_threshold"%b, SIn 0 (1#8)); ("params.BB"%b, SNonneg); ("params.beta"%b, SNonneg);
  ("params.gamma"%b, SPos)] |}.
Definition d_gga_c_pbeloc : domain := {| d_level := Gga false; d_pars := [("p.zeta_threshold"%b, SIn 0 (1#8))] |}.
Definition d_gga_c_pw91 : domain := {| d_level := Gga false; d_pars := [("p.zeta_threshold"%b, SIn 0 (1#8))] |}.
Definition d_gga_c_regtpss : domain := {| d_level := Gga false; d_pars := [("p.zeta_threshold"%b, SIn 0 (1#8))] |}.
Definition d_gga_c_revtca : domain := {| d_level := Gga false; d_pars := [] |}.
Definition d_gga_c_scan_e0 : domain := {| d_level := Gga false; d_pars := [("p.zeta_threshold"%b, SIn 0 (1#8))] |}.
Definition d_gga_c_sg4 : domain := {| d_level := Gga false; d_pars := [("p.zeta_threshold"%b, SIn 0 (1#8))] |}.
Definition d_gga_c_sogga11 : domain := {| d_level := Gga false; d_pars := [("p.zeta_threshold"%b, SIn 0 (1#8)); ("params.sogga11_b[5]"%b, SAny);
  ("params.sogga11_a[3]"%b, SAny); ("params.sogga11_a[5]"%b, SAny);
  ("params.sogga11_b[3]"%b, SAny); ("params.sogga11_b[4]"%b, SAny);
  ("params.sogga11_a[1]"%b, SAny); ("params.sogga11_a[2]"%b, SAny);
  ("params.sogga11_a[4]"%b, SAny); ("params.sogga11_b[1]"%b, SAny);
  ("params.sogga11_b[2]"%b, SAny); ("params.sogga11_a[0]"%b, SAny);
  ("params.sogga11_b[0]"%b, SAny)] |}.
Definition d_gga_c_tca : domain := {| d_level := Gga false; d_pars := [] |}.
Definition d_gga_c_w94 : domain := {| d_level := Gga false; d_pars := [] |}.
Definition d_gga_c_wi : domain := {| d_level := Gga false; d_pars := [("params.a"%b, SAny); ("params.b"%b, SAny); ("params.c"%b, SNonneg); ("params.d"%b, SNonneg);
  ("params.k"%b, SAny)] |}.
Definition d_gga_c_wl : domain := {| d_level := Gga false; d_pars := [] |}.
Definition d_gga_c_zpbeint : domain := {| d_level := Gga false; d_pars := [("p.zeta_threshold"%b, SIn 0 (1#8)); ("params.alpha"%b, SAny); ("params.beta"%b, SNonneg)] |}.
Definition d_gga_c_zvpbeint : domain := {| d_level := Gga false; d_pars := [("p.zeta_threshold"%b, SIn 0 (1#8)); ("params.omega"%b, SAny); ("params.alpha"%b, SAny);
  ("params.beta"%b, SNonneg)] |}.
Definition d_gga_c_zvpbeloc : domain := {| d_level := Gga false; d_pars := [("p.zeta_threshold"%b, SIn 0 (1#8))] |}.
Definition d_gga_k_apbe : domain := {| d_level := Gga false; d_pars := [("params.kappa"%b, SPos); ("params.mu"%b, SNonneg)] |}.
Definition d_gga_k_dk : domain := {| d_level := Gga false; d_pars := [("params.aa[0]"%b, SAny); ("params.aa[1]"%b, SAny); ("params.aa[2]"%b, SAny);
  ("params.aa[3]"%b, SAny); ("params.aa[4]"%b, SAny); ("params.bb[0]"%b, SPos);
  ("params.bb[1]"%b, SNonneg); ("params.bb[2]"%b, SNonneg); ("params.bb[3]"%b, SNonneg);
  ("params.bb[4]"%b, SNonneg)] |}.
Definition d_gga_k_exp4 : domain := {| d_level := Gga false; d_pars := [] |}.
Definition d_gga_k_lc94 : domain := {| d_level := Gga false; d_pars := [("params.a"%b, SNonneg); ("params.alpha"%b, SAny); ("params.b"%b, SNonneg);
  ("params.c"%b, SAny); ("params.d"%b, SAny); ("params.expo"%b, SPos); ("params.f"%b, SNonneg)] |}.
Definition d_gga_k_lgap : domain := {| d_level := Gga false; d_pars := [("params.kappa"%b, SAny); ("params.mu[0]"%b, SAny); ("params.mu[1]"%b, SAny);
  ("params.mu[2]"%b, SAny)] |}.
Definition d_gga_k_lgap_ge : domain := {| d_level := Gga false; d_pars := [("params.mu[0]"%b, SAny); ("params.mu[1]"%b, SAny); ("params.mu[2]"%b, SAny)] |}.
Definition d_gga_k_lkt : domain := {| d_level := Gga false; d_pars := [("params.a"%b, SAny)] |}.
Definition d_gga_k_llp : domain := {| d_level := Gga false; d_pars := [("params.beta"%b, SNonneg); ("params.gamma"%b, SNonneg)] |}.
Definition d_gga_k_mpbe : domain := {| d_level := Gga false; d_pars := [("params.a"%b, SNonneg); ("params.c1"%b, SAny); ("params.c2"%b, SAny); ("params.c3"%b, SAny)] |}.
Definition d_gga_k_ol1 : domain := {| d_level := Gga false; d_pars := [] |}.
Definition d_gga_k_ol2 : domain := {| d_level := Gga false; d_pars := [("params.aa"%b, SAny); ("params.bb"%b, SAny); ("params.cc"%b, SAny)] |}.
Definition d_gga_k_pearson : domain := {| d_level := Gga false; d_pars := [] |}.
Definition d_gga_k_pg : domain := {| d_level := Gga false; d_pars := [("params.pg_mu"%b, SAny)] |}.
Definition d_gga_k_pw86 : domain := {| d_level := Gga false; d_pars := [] |}.
Definition d_gga_k_rational_p : domain := {| d_level := Gga false; d_pars := [("params.C2"%b, SNonneg); ("params.p"%b, SPos)] |}.
Definition d_gga_k_tflw : domain := {| d_level := Gga false; d_pars := [("params.gamma"%b, SAny); ("params.lambda_"%b, SAny)] |}.
Definition d_gga_k_thakkar : domain := {| d_level := Gga false; d_pars := [] |}.
Definition d_gga_k_vt84f : domain := {| d_level := Gga false; d_pars := [("params.alpha"%b, SAny); ("params.mu"%b, SNonneg)] |}.
Definition d_gga_x_2d_b86 : domain := {| d_level := Gga false; d_pars := [] |}.
Definition d_gga_x_2d_b86_mgc : domain := {| d_level := Gga false; d_pars := [] |}.
Definition d_gga_x_2d_b88 : domain := {| d_level := Gga false; d_pars := [] |}.
Definition d_gga_x_2d_pbe : domain := {| d_level := Gga false; d_pars := [] |}.
Definition d_gga_x_airy : domain := {| d_level := Gga false; d_pars := [] |}.
Definition d_gga_x_ak13 : domain := {| d_level := Gga false; d_pars := [("params.B1"%b, SAny); ("params.B2"%b, SAny)] |}.
Definition d_gga_x_am05 : domain := {| d_level := Gga false; d_pars := [("params.alpha"%b, SNonneg); ("params.c"%b, SNonneg)] |}.
Definition d_gga_x_b86 : domain := {| d_level := Gga false; d_pars := [("params.beta"%b, SAny); ("params.gamma"%b, SNonneg); ("params.omega"%b, SAny)] |}.
Definition d_gga_x_b88 : domain := {| d_level := Gga false; d_pars := [("params.beta"%b, SNonneg); ("params.gamma"%b, SNonneg)] |}.
Definition d_gga_x_bayesian : domain := {| d_level := Gga false; d_pars := [] |}.
Definition d_gga_x_beefvdw : domain := {| d_level := Gga false; d_pars := [] |}.
Definition d_gga_x_bpccac : domain := {| d_level := Gga false; d_pars := [] |}.
Definition d_gga_x_c09x : domain := {| d_level := Gga false; d_pars := [] |}.
Definition d_gga_x_cap : domain := {| d_level := Gga false; d_pars := [("params.alphaoAx"%b, SAny); ("params.c"%b, SNonneg)] |}.
Definition d_gga_x_chachiyo : domain := {| d_level := Gga true; d_pars := [] |}.
Definition d_gga_x_dk87 : domain := {| d_level := Gga false; d_pars := [("params.a1"%b, SAny); ("params.alpha"%b, SPos); ("params.b1"%b, SNonneg)] |}.
Definition d_gga_x_ev93 : domain := {| d_level := Gga false; d_pars := [("params.a1"%b, SAny); ("params.a2"%b, SAny); ("params.a3"%b, SAny); ("params.b1"%b, SNonneg);
  ("params.b2"%b, SNonneg); ("params.b3"%b, SNonneg)] |}.
Definition d_gga_x_ft97 : domain := {| d_level := Gga false; d_pars := [("params.beta0"%b, SAny); ("params.beta1"%b, SAny); ("params.beta2"%b, SPos)] |}.
Definition d_gga_x_g96 : domain := {| d_level := Gga false; d_pars := [] |}.
Definition d_gga_x_hcth_a : domain := {| d_level := Gga false; d_pars := [] |}.
Definition d_gga_x_herman : domain := {| d_level := Gga false; d_pars := [] |}.
Definition d_gga_x_hjs : domain := {| d_level := Gga false; d_pars := [("p.cam_omega"%b, SNonneg); ("params.a[0]"%b, SNonneg); ("params.a[1]"%b, SNonneg);
  ("params.a[2]"%b, SNonneg); ("params.a[3]"%b, SNonneg); ("params.a[4]"%b, SNonneg);
  ("params.a[5]"%b, SNonneg); ("params.b[0]"%b, SNonneg); ("params.b[1]"%b, SNonneg);
  ("params.b[2]"%b, SNonneg); ("params.b[3]"%b, SNonneg); ("params.b[4]"%b, SNonneg);
  ("params.b[5]"%b, SNonneg); ("params.b[6]"%b, SNonneg); ("params.b[7]"%b, SNonneg);
  ("params.b[8]"%b, SNonneg)] |}.
Definition d_gga_x_htbs : domain := {| d_level := Gga false; d_pars := [] |}.
Definition d_gga_x_ityh : domain := {| d_level := Gga false; d_pars := [("p.cam_omega"%b, SPos)] |}.
Definition d_gga_x_ityh_optx : domain := {| d_level := Gga false; d_pars := [("p.cam_omega"%b, SPos); ("params.a"%b, SPos); ("params.b"%b, SNonneg)] |}.
Definition d_gga_x_ityh_pbe : domain := {| d_level := Gga false; d_pars := [("p.cam_omega"%b, SPos); ("params.kappa"%b, SPos); ("params.mu"%b, SNonneg)] |}.
Definition d_gga_x_kt : domain := {| d_level := Gga false; d_pars := [("params.delta"%b, SNonneg); ("params.gamma"%b, SAny)] |}.
Definition d_gga_x_lag : domain := {| d_level := Gga false; d_pars := [] |}.
Definition d_gga_x_lg93 : domain := {| d_level := Gga false; d_pars := [] |}.
Definition d_gga_x_lspbe : domain := {| d_level := Gga false; d_pars := [("params.alpha"%b, SAny); ("params.kappa"%b, SPos); ("params.mu"%b, SNonneg)] |}.
Definition d_gga_x_lsrpbe : domain := {| d_level := Gga false; d_pars := [("params.alpha"%b, SAny); ("params.kappa"%b, SPos); ("params.mu"%b, SAny)] |}.
Definition d_gga_x_lv_rpw86 : domain := {| d_level := Gga false; d_pars := [] |}.
Definition d_gga_x_mpbe : domain := {| d_level := Gga false; d_pars := [("params.a"%b, SNonneg); ("params.c1"%b, SAny); ("params.c2"%b, SAny); ("params.c3"%b, SAny)] |}.
Definition d_gga_x_n12 : domain := {| d_level := Gga false; d_pars := [("params.CC[0][0]"%b, SAny); ("params.CC[0][1]"%b, SAny); ("params.CC[0][2]"%b, SAny);
  ("params.CC[0][3]"%b, SAny); ("params.CC[1][0]"%b, SAny); ("params.CC[1][1]"%b, SAny);
  ("params.CC[1][2]"%b, SAny); ("params.CC[1][3]"%b, SAny); ("params.CC[2][0]"%b, SAny);
  ("params.CC[2][1]"%b, SAny); ("params.CC[2][2]"%b, SAny); ("params.CC[2][3]"%b, SAny);
  ("params.CC[3][0]"%b, SAny); ("params.CC[3][1]"%b, SAny); ("params.CC[3][2]"%b, SAny);
  ("params.CC[3][3]"%b, SAny)] |}.
Definition d_gga_x_ncap : domain := {| d_level := Gga false; d_pars := [("params.alpha"%b, SAny); ("params.beta"%b, SNonneg); ("params.mu"%b, SAny);
  ("params.zeta"%b, SAny)] |}.
Definition d_gga_x_ol2 : domain := {| d_level := Gga false; d_pars := [("params.aa"%b, SAny); ("params.bb"%b, SAny); ("params.cc"%b, SAny)] |}.
Definition d_gga_x_optx : domain := {| d_level := Gga false; d_pars := [("params.a"%b, SAny); ("params.b"%b, SAny); ("params.gamma"%b, SNonneg)] |}.
Definition d_gga_x_pbe : domain := {| d_level := Gga false; d_pars := [("params.kappa"%b, SPos); ("params.mu"%b, SNonneg)] |}.
Definition d_gga_x_pbea : domain := {| d_level := Gga false; d_pars := [] |}.
Definition d_gga_x_pbepow : domain := {| d_level := Gga false; d_pars := [] |}.
Definition d_gga_x_pbetrans : domain := {| d_level := Gga false; d_pars := [] |}.
Definition d_gga_x_pw86 : domain := {| d_level := Gga false; d_pars := [("params.aa"%b, SNonneg); ("params.bb"%b, SNonneg); ("params.cc"%b, SNonneg)] |}.
Definition d_gga_x_pw91 : domain := {| d_level := Gga false; d_pars := [("params.a"%b, SNonneg); ("params.alpha"%b, SAny); ("params.b"%b, SNonneg);
  ("params.c"%b, SAny); ("params.d"%b, SAny); ("params.expo"%b, SPos); ("params.f"%b, SNonneg)] |}.
Definition d_gga_x_q1d : domain := {| d_level := Gga false; d_pars := [] |}.
Definition d_gga_x_q2d : domain := {| d_level := Gga false; d_pars := [] |}.
Definition d_gga_x_rge2 : domain := {| d_level := Gga false; d_pars := [] |}.
Definition d_gga_x_rpbe : domain := {| d_level := Gga false; d_pars := [("params.rpbe_kappa"%b, SPos); ("params.rpbe_mu"%b, SAny)] |}.
Definition d_gga_x_s12 : domain := {| d_level := Gga false; d_pars := [("params.A"%b, SAny); ("params.B"%b, SAny); ("params.C"%b, SNonneg); ("params.D"%b, SNonneg);
  ("params.E"%b, SNonneg); ("params.bx"%b, SAny)] |}.
Definition d_gga_x_sfat : domain := {| d_level := Gga false; d_pars := [("p.cam_omega"%b, SPos)] |}.
Definition d_gga_x_sfat_pbe : domain := {| d_level := Gga false; d_pars := [("p.cam_omega"%b, SPos)] |}.
Definition d_gga_x_sogga11 : domain := {| d_level := Gga false; d_pars := [("params.a[0]"%b, SAny); ("params.a[1]"%b, SAny); ("params.a[2]"%b, SAny);
  ("params.a[3]"%b, SAny); ("params.a[4]"%b, SAny); ("params.a[5]"%b, SAny);
  ("params.b[0]"%b, SAny); ("params.b[1]"%b, SAny); ("params.b[2]"%b, SAny);
  ("params.b[3]"%b, SAny); ("params.b[4]"%b, SAny); ("params.b[5]"%b, SAny);
  ("params.kappa"%b, SPos); ("params.mu"%b, SNonneg)] |}.
Definition d_gga_x_ssb_sw : domain := {| d_level := Gga false; d_pars := [("params.A"%b, SAny); ("params.B"%b, SAny); ("params.C"%b, SNonneg); ("params.D"%b, SAny);
  ("params.E"%b, SNonneg)] |}.
Definition d_gga_x_vmt : domain := {| d_level := Gga false; d_pars := [("params.alpha"%b, SAny); ("params.mu"%b, SNonneg)] |}.
Definition d_gga_x_vmt84 : domain := {| d_level := Gga true; d_pars := [("params.alpha"%b, SAny); ("params.mu"%b, SNonneg)] |}.
Definition d_gga_x_wc : domain := {| d_level := Gga false; d_pars := [] |}.
Definition d_gga_x_wpbeh : domain := {| d_level := Gga false; d_pars := [("p.cam_omega"%b, SAny)] |}.
Definition d_gga_xc_b97 : domain := {| d_level := Gga false; d_pars := [("params.c_ab[0]"%b, SAny); ("params.c_ab[1]"%b, SAny); ("params.c_ab[2]"%b, SAny);
  ("params.c_ab[3]"%b, SAny); ("params.c_ab[4]"%b, SAny); ("params.c_ss[0]"%b, SAny);
  ("params.c_ss[1]"%b, SAny); ("params.c_ss[2]"%b, SAny); ("params.c_ss[3]"%b, SAny);
  ("params.c_ss[4]"%b, SAny); ("params.c_x[0]"%b, SAny); ("params.c_x[1]"%b, SAny);
  ("params.c_x[2]"%b, SAny); ("params.c_x[3]"%b, SAny); ("params.c_x[4]"%b, SAny)] |}.
Definition d_gga_xc_th1 : domain := {| d_level := Gga false; d_pars := [("params.omega[0]"%b, SAny); ("params.omega[10]"%b, SAny); ("params.omega[11]"%b, SAny);
  ("params.omega[12]"%b, SAny); ("params.omega[13]"%b, SAny); ("params.omega[14]"%b, SAny);
  ("params.omega[15]"%b, SAny); ("params.omega[16]"%b, SAny); ("params.omega[17]"%b, SAny);
  ("params.omega[18]"%b, SAny); ("params.omega[19]"%b, SAny); ("params.omega[1]"%b, SAny);
  ("params.omega[20]"%b, SAny); ("params.omega[2]"%b, SAny); ("params.omega[3]"%b, SAny);
  ("params.omega[4]"%b, SAny); ("params.omega[5]"%b, SAny); ("params.omega[6]"%b, SAny);
  ("params.omega[7]"%b, SAny); ("params.omega[8]"%b, SAny); ("params.omega[9]"%b, SAny)] |}.
Definition d_gga_xc_th2 : domain := {| d_level := Gga false; d_pars := [] |}.
Definition d_gga_xc_th3 : domain := {| d_level := Gga false; d_pars := [("params.omega[0]"%b, SAny); ("params.omega[10]"%b, SAny); ("params.omega[11]"%b, SAny);
  ("params.omega[12]"%b, SAny); ("params.omega[13]"%b, SAny); ("params.omega[14]"%b, SAny);
  ("params.omega[15]"%b, SAny); ("params.omega[16]"%b, SAny); ("params.omega[17]"%b, SAny);
  ("params.omega[18]"%b, SAny); ("params.omega[1]"%b, SAny); ("params.omega[2]"%b, SAny);
  ("params.omega[3]"%b, SAny); ("params.omega[4]"%b, SAny); ("params.omega[5]"%b, SAny);
  ("params.omega[6]"%b, SAny); ("params.omega[7]"%b, SAny); ("params.omega[8]"%b, SAny);
  ("params.omega[9]"%b, SAny)] |}.
Definition d_hyb_gga_x_cam_s12 : domain := {| d_level := Gga false; d_pars := [("p.cam_alpha"%b, SAny); ("p.cam_beta"%b, SAny); ("p.cam_omega"%b, SPos); ("params.A"%b, SPos);
  ("params.B"%b, SNonneg); ("params.C"%b, SNonneg); ("params.D"%b, SNonneg);
  ("params.E"%b, SNonneg)] |}.
Definition d_hyb_gga_xc_wb97 : domain := {| d_level := Gga false; d_pars := [("p.cam_omega"%b, SPos); ("params.c_ab[0]"%b, SAny); ("params.c_ab[1]"%b, SAny);
  ("params.c_ab[2]"%b, SAny); ("params.c_ab[3]"%b, SAny); ("params.c_ab[4]"%b, SAny);
  ("params.c_ss[0]"%b, SAny); ("params.c_ss[1]"%b, SAny); ("params.c_ss[2]"%b, SAny);
  ("params.c_ss[3]"%b, SAny); ("params.c_ss[4]"%b, SAny); ("params.c_x[0]"%b, SAny);
  ("params.c_x[1]"%b, SAny); ("params.c_x[2]"%b, SAny); ("params.c_x[3]"%b, SAny);
  ("params.c_x[4]"%b, SAny)] |}.
Definition d_hyb_mgga_x_dldf : domain := {| d_level := Mgga false; d_pars := [] |}.
Definition d_hyb_mgga_x_m05 : domain := {| d_level := Mgga false; d_pars := [("params.a[0]"%b, SAny); ("params.a[10]"%b, SAny); ("params.a[11]"%b, SAny);
  ("params.a[1]"%b, SAny); ("params.a[2]"%b, SAny); ("params.a[3]"%b, SAny);
  ("params.a[4]"%b, SAny); ("params.a[5]"%b, SAny); ("params.a[6]"%b, SAny);
  ("params.a[7]"%b, SAny); ("params.a[8]"%b, SAny); ("params.a[9]"%b, SAny);
  ("params.csi_HF"%b, SAny)] |}.
Definition d_hyb_mgga_x_pjs18 : domain := {| d_level := Mgga false; d_pars := [("p.cam_omega"%b, SPos)] |}.
Definition d_hyb_mgga_xc_wb97mv : domain := {| d_level := Mgga false; d_pars := [("p.cam_omega"%b, SPos); ("params.c_os[0]"%b, SAny); ("params.c_os[1]"%b, SAny);
  ("params.c_os[2]"%b, SAny); ("params.c_os[3]"%b, SAny); ("params.c_os[4]"%b, SAny);
  ("params.c_os[5]"%b, SAny); ("params.c_ss[0]"%b, SAny); ("params.c_ss[1]"%b, SAny);
  ("params.c_ss[2]"%b, SAny); ("params.c_ss[3]"%b, SAny); ("params.c_ss[4]"%b, SAny);
  ("params.c_x[0]"%b, SAny); ("params.c_x[1]"%b, SAny); ("params.c_x[2]"%b, SAny)] |}.
Definition d_lda_c_1d_csc : domain := {| d_level := Lda; d_pars := [("params.ferro[0]"%b, SPos); ("params.ferro[1]"%b, SNonneg); ("params.ferro[2]"%b, SNonneg);
  ("params.ferro[3]"%b, SNonneg); ("params.ferro[4]"%b, SAny); ("params.ferro[5]"%b, SAny);
  ("params.ferro[6]"%b, SAny); ("params.ferro[7]"%b, SNonneg); ("params.ferro[8]"%b, SNonneg);
  ("params.ferro[9]"%b, SAny); ("params.para[0]"%b, SPos); ("params.para[1]"%b, SNonneg);
  ("params.para[2]"%b, SNonneg); ("params.para[3]"%b, SNonneg); ("params.para[4]"%b, SAny);
  ("params.para[5]"%b, SAny); ("params.para[6]"%b, SAny); ("params.para[7]"%b, SNonneg);
  ("params.para[8]"%b, SNonneg); ("params.para[9]"%b, SAny)] |}.
Definition d_lda_c_1d_loos : domain := {| d_level := Lda; d_pars := [] |}.
Definition d_lda_c_2d_prm : domain := {| d_level := Lda; d_pars := [("params.c"%b, SNonneg)] |}.
Definition d_lda_c_chachiyo : domain := {| d_level := Lda; d_pars := [("params.af"%b, SAny); ("params.ap"%b, SAny); ("params.bf"%b, SNonneg);
  ("params.bp"%b, SNonneg); ("params.cf"%b, SNonneg); ("params.cp"%b, SNonneg)] |}.
Definition d_lda_c_chachiyo_mod : domain := {| d_level := Lda; d_pars := [("params.af"%b, SAny); ("params.ap"%b, SAny); ("params.bf"%b, SNonneg);
  ("params.bp"%b, SNonneg); ("params.cf"%b, SNonneg); ("params.cp"%b, SNonneg)] |}.
Definition d_lda_c_gk72 : domain := {| d_level := Lda; d_pars := [] |}.
Definition d_lda_c_gombas : domain := {| d_level := Lda; d_pars := [] |}.
Definition d_lda_c_hl : domain := {| d_level := Lda; d_pars := [("params.hl_c[0]"%b, SAny); ("params.hl_c[1]"%b, SAny); ("params.hl_r[0]"%b, SPos);
  ("params.hl_r[1]"%b, SPos)] |}.
Definition d_lda_c_lp96 : domain := {| d_level := Lda; d_pars := [("params.C1"%b, SAny); ("params.C2"%b, SAny); ("params.C3"%b, SAny)] |}.
Definition d_lda_c_ml1 : domain := {| d_level := Lda; d_pars := [("params.fc"%b, SPos); ("params.q"%b, SAny)] |}.
Definition d_lda_c_pmgb06 : domain := {| d_level := Lda; d_pars := [("p.cam_omega"%b, SNonneg)] |}.
Definition d_lda_c_pw : domain := {| d_level := Lda; d_pars := [("params.a[0]"%b, SPos); ("params.a[1]"%b, SPos); ("params.a[2]"%b, SPos);
  ("params.alpha1[0]"%b, SAny); ("params.alpha1[1]"%b, SAny); ("params.alpha1[2]"%b, SAny);
  ("params.beta1[0]"%b, SNonneg); ("params.beta1[1]"%b, SNonneg); ("params.beta1[2]"%b, SNonneg);
  ("params.beta2[0]"%b, SNonneg); ("params.beta2[1]"%b, SNonneg); ("params.beta2[2]"%b, SNonneg);
  ("params.beta3[0]"%b, SNonneg); ("params.beta3[1]"%b, SNonneg); ("params.beta3[2]"%b, SNonneg);
  ("params.beta4[0]"%b, SPos); ("params.beta4[1]"%b, SPos); ("params.beta4[2]"%b, SPos);
  ("params.fz20"%b, SPos); ("params.pp[0]"%b, SAny); ("params.pp[1]"%b, SAny);
  ("params.pp[2]"%b, SAny)] |}.
Definition d_lda_c_pz : domain := {| d_level := Lda; d_pars := [("params.a[0]"%b, SAny); ("params.a[1]"%b, SAny); ("params.b[0]"%b, SAny);
  ("params.b[1]"%b, SAny); ("params.beta1[0]"%b, SNonneg); ("params.beta1[1]"%b, SNonneg);
  ("params.beta2[0]"%b, SNonneg); ("params.beta2[1]"%b, SNonneg); ("params.c[0]"%b, SAny);
  ("params.c[1]"%b, SAny); ("params.d[0]"%b, SAny); ("params.d[1]"%b, SAny);
  ("params.gamma[0]"%b, SAny); ("params.gamma[1]"%b, SAny)] |}.
Definition d_lda_c_rc04 : domain := {| d_level := Lda; d_pars := [] |}.
Definition d_lda_c_rpa : domain := {| d_level := Lda; d_pars := [] |}.
Definition d_lda_c_vwn : domain := {| d_level := Lda; d_pars := [] |}.
Definition d_lda_c_vwn_1 : domain := {| d_level := Lda; d_pars := [] |}.
Definition d_lda_c_vwn_2 : domain := {| d_level := Lda; d_pars := [] |}.
Definition d_lda_c_vwn_4 : domain := {| d_level := Lda; d_pars := [] |}.
Definition d_lda_c_vwn_rpa : domain := {| d_level := Lda; d_pars := [] |}.
Definition d_lda_c_wigner : domain := {| d_level := Lda; d_pars := [("params.a"%b, SAny); ("params.b"%b, SNonneg)] |}.
Definition d_lda_k_gds08_worker : domain := {| d_level := Lda; d_pars := [("params.A"%b, SAny); ("params.B"%b, SAny); ("params.C"%b, SAny)] |}.
Definition d_lda_k_tf : domain := {| d_level := Lda; d_pars := [("params.ax"%b, SAny)] |}.
Definition d_lda_k_zlp : domain := {| d_level := Lda; d_pars := [] |}.
Definition d_lda_x : domain := {| d_level := Lda; d_pars := [("params.alpha"%b, SAny)] |}.
Definition d_lda_x_2d : domain := {| d_level := Lda; d_pars := [] |}.
Definition d_lda_x_erf : domain := {| d_level := Lda; d_pars := [("p.cam_omega"%b, SPos)] |}.
Definition d_lda_x_rel : domain := {| d_level := Lda; d_pars := [] |}.
Definition d_lda_x_sloc : domain := {| d_level := Lda; d_pars := [("params.a"%b, SAny); ("params.b"%b, SNonneg)] |}.
Definition d_lda_x_yukawa : domain := {| d_level := Lda; d_pars := [("p.cam_omega"%b, SPos)] |}.
Definition d_lda_xc_1d_ehwlrg : domain := {| d_level := Lda; d_pars := [("params.a1"%b, SAny); ("params.a2"%b, SAny); ("params.a3"%b, SAny); ("params.alpha"%b, SAny)] |}.
Definition d_lda_xc_teter93 : domain := {| d_level := Lda; d_pars := [] |}.
Definition d_lda_xc_tih : domain := {| d_level := Lda; d_pars := [] |}.
Definition d_lda_xc_zlp : domain := {| d_level := Lda; d_pars := [] |}.
Definition d_mgga_c_b88 : domain := {| d_level := Mgga false; d_pars := [] |}.
Definition d_mgga_c_bc95 : domain := {| d_level := Mgga false; d_pars := [("params.copp"%b, SNonneg); ("params.css"%b, SNonneg)] |}.
Definition d_mgga_c_cc : domain := {| d_level := Mgga false; d_pars := [] |}.
Definition d_mgga_c_cs : domain := {| d_level := Mgga false; d_pars := [] |}.
Definition d_mgga_c_ltapw : domain := {| d_level := Mgga false; d_pars := [("params.ltafrac"%b, SAny)] |}.
Definition d_mgga_c_m05 : domain := {| d_level := Mgga false; d_pars := [("params.Fermi_D_cnst"%b, SPos); ("params.cab[0]"%b, SAny); ("params.cab[1]"%b, SAny);
  ("params.cab[2]"%b, SAny); ("params.cab[3]"%b, SAny); ("params.cab[4]"%b, SAny);
  ("params.css[0]"%b, SAny); ("params.css[1]"%b, SAny); ("params.css[2]"%b, SAny);
  ("params.css[3]"%b, SAny); ("params.css[4]"%b, SAny); ("params.gamma_ab"%b, SNonneg);
  ("params.gamma_ss"%b, SNonneg)] |}.
Definition d_mgga_c_m08 : domain := {| d_level := Mgga false; d_pars := [("p.zeta_threshold"%b, SIn 0 (1#8)); ("params.m08_a[0]"%b, SAny); ("params.m08_a[1]"%b, SAny);
  ("params.m08_a[2]"%b, SAny); ("params.m08_a[3]"%b, SAny); ("params.m08_a[4]"%b, SAny);
  ("params.m08_a[5]"%b, SAny); ("params.m08_a[6]"%b, SAny); ("params.m08_a[7]"%b, SAny);
  ("params.m08_a[8]"%b, SAny); ("params.m08_a[9]"%b, SAny); ("params.m08_a[10]"%b, SAny);
  ("params.m08_a[11]"%b, SAny); ("params.m08_b[0]"%b, SAny); ("params.m08_b[1]"%b, SAny);
  ("params.m08_b[2]"%b, SAny); ("params.m08_b[3]"%b, SAny); ("params.m08_b[4]"%b, SAny);
  ("params.m08_b[5]"%b, SAny); ("params.m08_b[6]"%b, SAny); ("params.m08_b[7]"%b, SAny);
  ("params.m08_b[8]"%b, SAny); ("params.m08_b[9]"%b, SAny); ("params.m08_b[10]"%b, SAny);
  ("params.m08_b[11]"%b, SAny)] |}.
Definition d_mgga_c_pkzb : domain := {| d_level := Mgga false; d_pars := [("p.zeta_threshold"%b, SIn 0 (1#8))] |}.
Definition d_mgga_c_rppscan : domain := {| d_level := Mgga false; d_pars := [("p.zeta_threshold"%b, SIn 0 (1#8)); ("params.eta"%b, SNonneg)] |}.
Definition d_mgga_c_rregtm : domain := {| d_level := Mgga false; d_pars := [("p.zeta_threshold"%b, SIn 0 (1#8))] |}.
Definition d_mgga_c_rscan : domain := {| d_level := Mgga false; d_pars := [("p.zeta_threshold"%b, SIn 0 (1#8))] |}.
Definition d_mgga_c_scan : domain := {| d_level := Mgga false; d_pars := [("p.zeta_threshold"%b, SIn 0 (1#8))] |}.
Definition d_mgga_k_gea2 : domain := {| d_level := Mgga false; d_pars := [] |}.
Definition d_mgga_k_gea4 : domain := {| d_level := Mgga false; d_pars := [] |}.
Definition d_mgga_k_pgslb : domain := {| d_level := Mgga false; d_pars := [("params.pgslb_beta"%b, SAny); ("params.pgslb_mu"%b, SAny)] |}.
Definition d_mgga_x_2d_js17 : domain := {| d_level := Mgga false; d_pars := [] |}.
Definition d_mgga_x_gdme : domain := {| d_level := Mgga false; d_pars := [("params.AA"%b, SAny); ("params.BB"%b, SAny); ("params.a"%b, SAny)] |}.
Definition d_mgga_x_gvt4 : domain := {| d_level := Mgga false; d_pars := [] |}.
Definition d_mgga_x_lta : domain := {| d_level := Mgga false; d_pars := [("params.ltafrac"%b, SAny)] |}.
Definition d_mgga_x_m06l : domain := {| d_level := Mgga false; d_pars := [("params.a[0]"%b, SAny); ("params.a[10]"%b, SAny); ("params.a[11]"%b, SAny);
  ("params.a[1]"%b, SAny); ("params.a[2]"%b, SAny); ("params.a[3]"%b, SAny);
  ("params.a[4]"%b, SAny); ("params.a[5]"%b, SAny); ("params.a[6]"%b, SAny);
  ("params.a[7]"%b, SAny); ("params.a[8]"%b, SAny); ("params.a[9]"%b, SAny);
  ("params.d[0]"%b, SAny); ("params.d[1]"%b, SAny); ("params.d[2]"%b, SAny);
  ("params.d[3]"%b, SAny); ("params.d[4]"%b, SAny); ("params.d[5]"%b, SAny)] |}.
Definition d_mgga_x_m08 : domain := {| d_level := Mgga false; d_pars := [("params.a[0]"%b, SAny); ("params.a[10]"%b, SAny); ("params.a[11]"%b, SAny);
  ("params.a[1]"%b, SAny); ("params.a[2]"%b, SAny); ("params.a[3]"%b, SAny);
  ("params.a[4]"%b, SAny); ("params.a[5]"%b, SAny); ("params.a[6]"%b, SAny);
  ("params.a[7]"%b, SAny); ("params.a[8]"%b, SAny); ("params.a[9]"%b, SAny);
  ("params.b[0]"%b, SAny); ("params.b[10]"%b, SAny); ("params.b[11]"%b, SAny);
  ("params.b[1]"%b, SAny); ("params.b[2]"%b, SAny); ("params.b[3]"%b, SAny);
  ("params.b[4]"%b, SAny); ("params.b[5]"%b, SAny); ("params.b[6]"%b, SAny);
  ("params.b[7]"%b, SAny); ("params.b[8]"%b, SAny); ("params.b[9]"%b, SAny)] |}.
Definition d_mgga_x_m11 : domain := {| d_level := Mgga false; d_pars := [("p.cam_omega"%b, SPos); ("params.a[0]"%b, SAny); ("params.a[10]"%b, SAny);
  ("params.a[11]"%b, SAny); ("params.a[1]"%b, SAny); ("params.a[2]"%b, SAny);
  ("params.a[3]"%b, SAny); ("params.a[4]"%b, SAny); ("params.a[5]"%b, SAny);
  ("params.a[6]"%b, SAny); ("params.a[7]"%b, SAny); ("params.a[8]"%b, SAny);
  ("params.a[9]"%b, SAny); ("params.b[0]"%b, SAny); ("params.b[10]"%b, SAny);
  ("params.b[11]"%b, SAny); ("params.b[1]"%b, SAny); ("params.b[2]"%b, SAny);
  ("params.b[3]"%b, SAny); ("params.b[4]"%b, SAny); ("params.b[5]"%b, SAny);
  ("params.b[6]"%b, SAny); ("params.b[7]"%b, SAny); ("params.b[8]"%b, SAny);
  ("params.b[9]"%b, SAny)] |}.
Definition d_mgga_x_m11_l : domain := {| d_level := Mgga false; d_pars := [("p.cam_omega"%b, SPos); ("params.a[0]"%b, SAny); ("params.a[10]"%b, SAny);
  ("params.a[11]"%b, SAny); ("params.a[1]"%b, SAny); ("params.a[2]"%b, SAny);
  ("params.a[3]"%b, SAny); ("params.a[4]"%b, SAny); ("params.a[5]"%b, SAny);
  ("params.a[6]"%b, SAny); ("params.a[7]"%b, SAny); ("params.a[8]"%b, SAny);
  ("params.a[9]"%b, SAny); ("params.b[0]"%b, SAny); ("params.b[10]"%b, SAny);
  ("params.b[11]"%b, SAny); ("params.b[1]"%b, SAny); ("params.b[2]"%b, SAny);
  ("params.b[3]"%b, SAny); ("params.b[4]"%b, SAny); ("params.b[5]"%b, SAny);
  ("params.b[6]"%b, SAny); ("params.b[7]"%b, SAny); ("params.b[8]"%b, SAny);
  ("params.b[9]"%b, SAny); ("params.c[0]"%b, SAny); ("params.c[10]"%b, SAny);
  ("params.c[11]"%b, SAny); ("params.c[1]"%b, SAny); ("params.c[2]"%b, SAny);
  ("params.c[3]"%b, SAny); ("params.c[4]"%b, SAny); ("params.c[5]"%b, SAny);
  ("params.c[6]"%b, SAny); ("params.c[7]"%b, SAny); ("params.c[8]"%b, SAny);
  ("params.c[9]"%b, SAny); ("params.d[0]"%b, SAny); ("params.d[10]"%b, SAny);
  ("params.d[11]"%b, SAny); ("params.d[1]"%b, SAny); ("params.d[2]"%b, SAny);
  ("params.d[3]"%b, SAny); ("params.d[4]"%b, SAny); ("params.d[5]"%b, SAny);
  ("params.d[6]"%b, SAny); ("params.d[7]"%b, SAny); ("params.d[8]"%b, SAny);
  ("params.d[9]"%b, SAny)] |}.
Definition d_mgga_x_mbeef : domain := {| d_level := Mgga false; d_pars := [] |}.
Definition d_mgga_x_mbeefvdw : domain := {| d_level := Mgga false; d_pars := [] |}.
Definition d_mgga_x_mcml : domain := {| d_level := Mgga false; d_pars := [] |}.
Definition d_mgga_x_mn12 : domain := {| d_level := Mgga false; d_pars := [("params.c[0]"%b, SAny); ("params.c[10]"%b, SAny); ("params.c[11]"%b, SAny);
  ("params.c[12]"%b, SAny); ("params.c[13]"%b, SAny); ("params.c[14]"%b, SAny);
  ("params.c[15]"%b, SAny); ("params.c[16]"%b, SAny); ("params.c[17]"%b, SAny);
  ("params.c[18]"%b, SAny); ("params.c[19]"%b, SAny); ("params.c[1]"%b, SAny);
  ("params.c[20]"%b, SAny); ("params.c[21]"%b, SAny); ("params.c[22]"%b, SAny);
  ("params.c[23]"%b, SAny); ("params.c[24]"%b, SAny); ("params.c[25]"%b, SAny);
  ("params.c[26]"%b, SAny); ("params.c[27]"%b, SAny); ("params.c[28]"%b, SAny);
  ("params.c[29]"%b, SAny); ("params.c[2]"%b, SAny); ("params.c[30]"%b, SAny);
  ("params.c[31]"%b, SAny); ("params.c[32]"%b, SAny); ("params.c[33]"%b, SAny);
  ("params.c[34]"%b, SAny); ("params.c[35]"%b, SAny); ("params.c[36]"%b, SAny);
  ("params.c[37]"%b, SAny); ("params.c[38]"%b, SAny); ("params.c[39]"%b, SAny);
  ("params.c[3]"%b, SAny); ("params.c[4]"%b, SAny); ("params.c[5]"%b, SAny);
  ("params.c[6]"%b, SAny); ("params.c[7]"%b, SAny); ("params.c[8]"%b, SAny);
  ("params.c[9]"%b, SAny)] |}.
Definition d_mgga_x_mvs : domain := {| d_level := Mgga false; d_pars := [("params.b"%b, SNonneg); ("params.c1"%b, SNonneg); ("params.e1"%b, SNonneg);
  ("params.k0"%b, SAny)] |}.
Definition d_mgga_x_tau_hcth : domain := {| d_level := Mgga false; d_pars := [("params.cx_local[0]"%b, SAny); ("params.cx_local[1]"%b, SAny); ("params.cx_local[2]"%b, SAny);
  ("params.cx_local[3]"%b, SAny); ("params.cx_nlocal[0]"%b, SAny);
  ("params.cx_nlocal[1]"%b, SAny); ("params.cx_nlocal[2]"%b, SAny);
  ("params.cx_nlocal[3]"%b, SAny)] |}.
Definition d_mgga_x_th : domain := {| d_level := Mgga false; d_pars := [] |}.
Definition d_mgga_x_vcml : domain := {| d_level := Mgga false; d_pars := [] |}.
Definition d_mgga_xc_b97mv : domain := {| d_level := Mgga false; d_pars := [("params.c_os[0]"%b, SAny); ("params.c_os[1]"%b, SAny); ("params.c_os[2]"%b, SAny);
  ("params.c_os[3]"%b, SAny); ("params.c_os[4]"%b, SAny); ("params.c_ss[0]"%b, SAny);
  ("params.c_ss[1]"%b, SAny); ("params.c_ss[2]"%b, SAny); ("params.c_ss[3]"%b, SAny);
  ("params.c_ss[4]"%b, SAny); ("params.c_x[0]"%b, SAny); ("params.c_x[1]"%b, SAny);
  ("params.c_x[2]"%b, SAny); ("params.c_x[3]"%b, SAny); ("params.c_x[4]"%b, SAny)] |}.
Definition d_mgga_xc_b98 : domain := {| d_level := Mgga false; d_pars := [] |}.
Definition d_mgga_xc_lp90 : domain := {| d_level := Mgga false; d_pars := [] |}.
Definition d_mgga_xc_zlp : domain := {| d_level := Mgga false; d_pars := [] |}.

(** The inputs on which the exchange energy is shown not to be positive. *)
Definition n_gga_x_2d_b86 : domain := {| d_level := Gga false; d_pars := [] |}.
Definition n_gga_x_2d_b86_mgc : domain := {| d_level := Gga false; d_pars := [] |}.
Definition n_gga_x_2d_b88 : domain := {| d_level := Gga false; d_pars := [] |}.
Definition n_gga_x_2d_pbe : domain := {| d_level := Gga false; d_pars := [] |}.
Definition n_gga_x_ak13 : domain := {| d_level := Gga false; d_pars := [("params.B1"%b, SNonneg); ("params.B2"%b, SNonneg)] |}.
Definition n_gga_x_b86 : domain := {| d_level := Gga false; d_pars := [("params.beta"%b, SNonneg); ("params.gamma"%b, SNonneg); ("params.omega"%b, SAny)] |}.
Definition n_gga_x_b88 : domain := {| d_level := Gga false; d_pars := [("params.beta"%b, SNonneg); ("params.gamma"%b, SNonneg)] |}.
Definition n_gga_x_bayesian : domain := {| d_level := Gga false; d_pars := [] |}.
Definition n_gga_x_c09x : domain := {| d_level := Gga false; d_pars := [] |}.
Definition n_gga_x_chachiyo : domain := {| d_level := Gga true; d_pars := [] |}.
Definition n_gga_x_dk87 : domain := {| d_level := Gga false; d_pars := [("params.a1"%b, SNonneg); ("params.alpha"%b, SPos); ("params.b1"%b, SNonneg)] |}.
Definition n_gga_x_ev93 : domain := {| d_level := Gga false; d_pars := [("params.a1"%b, SNonneg); ("params.a2"%b, SNonneg); ("params.a3"%b, SNonneg);
  ("params.b1"%b, SNonneg); ("params.b2"%b, SNonneg); ("params.b3"%b, SNonneg)] |}.
Definition n_gga_x_ft97 : domain := {| d_level := Gga false; d_pars := [("params.beta0"%b, SNonneg); ("params.beta1"%b, SNonneg); ("params.beta2"%b, SPos)] |}.
Definition n_gga_x_g96 : domain := {| d_level := Gga false; d_pars := [] |}.
Definition n_gga_x_herman : domain := {| d_level := Gga false; d_pars := [] |}.
Definition n_gga_x_lag : domain := {| d_level := Gga false; d_pars := [] |}.
Definition n_gga_x_lg93 : domain := {| d_level := Gga false; d_pars := [] |}.
Definition n_gga_x_lv_rpw86 : domain := {| d_level := Gga false; d_pars := [] |}.
Definition n_gga_x_mpbe : domain := {| d_level := Gga false; d_pars := [("params.a"%b, SNonneg); ("params.c1"%b, SNonneg); ("params.c2"%b, SNonneg);
  ("params.c3"%b, SNonneg)] |}.
Definition n_gga_x_n12 : domain := {| d_level := Gga false; d_pars := [("params.CC[0][0]"%b, SNonneg); ("params.CC[0][1]"%b, SNonneg); ("params.CC[0][2]"%b, SNonneg);
  ("params.CC[0][3]"%b, SNonneg); ("params.CC[1][0]"%b, SNonneg); ("params.CC[1][1]"%b, SNonneg);
  ("params.CC[1][2]"%b, SNonneg); ("params.CC[1][3]"%b, SNonneg); ("params.CC[2][0]"%b, SNonneg);
  ("params.CC[2][1]"%b, SNonneg); ("params.CC[2][2]"%b, SNonneg); ("params.CC[2][3]"%b, SNonneg);
  ("params.CC[3][0]"%b, SNonneg); ("params.CC[3][1]"%b, SNonneg); ("params.CC[3][2]"%b, SNonneg);
  ("params.CC[3][3]"%b, SNonneg)] |}.
Definition n_gga_x_ol2 : domain := {| d_level := Gga false; d_pars := [("params.aa"%b, SNonneg); ("params.bb"%b, SNonneg); ("params.cc"%b, SNonneg)] |}.
Definition n_gga_x_optx : domain := {| d_level := Gga false; d_pars := [("params.a"%b, SNonneg); ("params.b"%b, SNonneg); ("params.gamma"%b, SNonneg)] |}.
Definition n_gga_x_pbe : domain := {| d_level := Gga false; d_pars := [("params.kappa"%b, SPos); ("params.mu"%b, SNonneg)] |}.
Definition n_gga_x_pbetrans : domain := {| d_level := Gga false; d_pars := [] |}.
Definition n_gga_x_pw86 : domain := {| d_level := Gga false; d_pars := [("params.aa"%b, SNonneg); ("params.bb"%b, SNonneg); ("params.cc"%b, SNonneg)] |}.
Definition n_gga_x_rge2 : domain := {| d_level := Gga false; d_pars := [] |}.
Definition n_gga_x_rpbe : domain := {| d_level := Gga false; d_pars := [("params.rpbe_kappa"%b, SPos); ("params.rpbe_mu"%b, SNonneg)] |}.
Definition n_gga_x_s12 : domain := {| d_level := Gga false; d_pars := [("params.A"%b, SNonneg); ("params.B"%b, SNonneg); ("params.C"%b, SNonneg);
  ("params.D"%b, SNonneg); ("params.E"%b, SNonneg); ("params.bx"%b, SNonneg)] |}.
Definition n_gga_x_sogga11 : domain := {| d_level := Gga false; d_pars := [("params.a[0]"%b, SNonneg); ("params.a[1]"%b, SNonneg); ("params.a[2]"%b, SNonneg);
  ("params.a[3]"%b, SNonneg); ("params.a[4]"%b, SNonneg); ("params.a[5]"%b, SNonneg);
  ("params.b[0]"%b, SNonneg); ("params.b[1]"%b, SNonneg); ("params.b[2]"%b, SNonneg);
  ("params.b[3]"%b, SNonneg); ("params.b[4]"%b, SNonneg); ("params.b[5]"%b, SNonneg);
  ("params.kappa"%b, SPos); ("params.mu"%b, SNonneg)] |}.
Definition n_gga_x_vmt : domain := {| d_level := Gga false; d_pars := [("params.alpha"%b, SAny); ("params.mu"%b, SNonneg)] |}.
Definition n_gga_x_wc : domain := {| d_level := Gga false; d_pars := [] |}.
Definition n_lda_x : domain := {| d_level := Lda; d_pars := [("params.alpha"%b, SNonneg)] |}.
Definition n_lda_x_2d : domain := {| d_level := Lda; d_pars := [] |}.
Definition n_lda_x_sloc : domain := {| d_level := Lda; d_pars := [("params.a"%b, SNonneg); ("params.b"%b, SNonneg)] |}.
Definition n_mgga_x_lta : domain := {| d_level := Mgga false; d_pars := [("params.ltafrac"%b, SAny)] |}.
Definition n_mgga_x_th : domain := {| d_level := Mgga false; d_pars := [] |}.
