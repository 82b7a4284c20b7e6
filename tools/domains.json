{"dom": {"gga_c_acgga": [["Gga false", [["p.zeta_threshold", "SIn 0 (1#8)"]]], true, true], "gga_c_acggap": [["Gga false", [["p.zeta_threshold", "SIn 0 (1#8)"]]], true, true], "gga_c_am05": [["Gga false", [["params.alpha", "SNonneg"], ["params.gamma", "SAny"]]], true, true], "gga_c_bmk": [["Gga false", [["params.c_ab[0]", "SAny"], ["params.c_ab[1]", "SAny"], ["params.c_ab[2]", "SAny"], ["params.c_ab[3]", "SAny"], ["params.c_ab[4]", "SAny"], ["params.c_ss[0]", "SAny"], ["params.c_ss[1]", "SAny"], ["params.c_ss[2]", "SAny"], ["params.c_ss[3]", "SAny"], ["params.c_ss[4]", "SAny"]]], true, true], "gga_c_ccdf": [["Gga false", [["params.c1", "SAny"], ["params.c2", "SNonneg"], ["params.c3", "SAny"], ["params.c4", "SAny"], ["params.c5", "SAny"]]], true, true], "gga_c_chachiyo": [["Gga false", [["params.bp", "SNonneg"], ["params.cp", "SPos"], ["params.ap", "SPos"], ["params.bf", "SNonneg"], ["params.cf", "SNonneg"], ["params.af", "SAny"], ["params.h", "SAny"]]], false, true], "gga_c_cs1": [["Gga false", []], true, true], "gga_c_ft97": [["Gga false", []], true, true], "gga_c_hcth_a": [["Gga false", []], true, true], "gga_c_lm": [["Gga false", [["params.lm_f", "SAny"]]], true, true], "gga_c_lyp": [["Gga false", [["params.a", "SAny"], ["params.b", "SAny"], ["params.c", "SAny"], ["params.d", "SNonneg"]]], true, true], "gga_c_lypr": [["Gga false", [["params.a", "SAny"], ["params.b", "SAny"], ["params.c", "SAny"], ["params.d", "SNonneg"], ["params.m1", "SAny"], ["params.m2", "SAny"], ["params.omega", "SAny"]]], true, true], "gga_c_op_b88": [["Gga false", []], true, true], "gga_c_op_g96": [["Gga false", []], true, true], "gga_c_op_pbe": [["Gga false", []], true, true], "gga_c_op_xalpha": [["Gga false", []], true, true], "gga_c_p86": [["Gga false", [["params.aa", "SNonneg"], ["params.bb", "SPos"], ["params.ftilde", "SAny"], ["params.malpha", "SNonneg"], ["params.mbeta", "SNonneg"], ["params.mdelta", "SNonneg"], ["params.mgamma", "SNonneg"]]], true, true], "gga_c_p86vwn": [["Gga false", [["params.aa", "SNonneg"], ["params.bb", "SPos"], ["params.ftilde", "SAny"], ["params.malpha", "SNonneg"], ["params.mbeta", "SNonneg"], ["params.mdelta", "SNonneg"], ["params.mgamma", "SNonneg"]]], true, true], "gga_c_pbe": [["Gga false", [["p.zeta_threshold", "SIn 0 (1#8)"], ["params.BB", "SNonneg"], ["params.beta", "SNonneg"], ["params.gamma", "SPos"]]], true, true], "gga_c_pbeloc": [["Gga false", [["p.zeta_threshold", "SIn 0 (1#8)"]]], true, true], "gga_c_pw91": [["Gga false", [["p.zeta_threshold", "SIn 0 (1#8)"]]], true, true], "gga_c_regtpss": [["Gga false", [["p.zeta_threshold", "SIn 0 (1#8)"]]], true, true], "gga_c_revtca": [["Gga false", []], true, true], "gga_c_scan_e0": [["Gga false", [["p.zeta_threshold", "SIn 0 (1#8)"]]], true, true], "gga_c_sg4": [["Gga false", [["p.zeta_threshold", "SIn 0 (1#8)"]]], true, true], "gga_c_sogga11": [["Gga false", [["p.zeta_threshold", "SIn 0 (1#8)"], ["params.sogga11_b[5]", "SAny"], ["params.sogga11_a[3]", "SAny"], ["params.sogga11_a[5]", "SAny"], ["params.sogga11_b[3]", "SAny"], ["params.sogga11_b[4]", "SAny"], ["params.sogga11_a[1]", "SAny"], ["params.sogga11_a[2]", "SAny"], ["params.sogga11_a[4]", "SAny"], ["params.sogga11_b[1]", "SAny"], ["params.sogga11_b[2]", "SAny"], ["params.sogga11_a[0]", "SAny"], ["params.sogga11_b[0]", "SAny"]]], true, true], "gga_c_tca": [["Gga false", []], true, true], "gga_c_w94": [["Gga false", []], true, true], "gga_c_wi": [["Gga false", [["params.a", "SAny"], ["params.b", "SAny"], ["params.c", "SNonneg"], ["params.d", "SNonneg"], ["params.k", "SAny"]]], true, true], "gga_c_wl": [["Gga false", []], false, true], "gga_c_zpbeint": [["Gga false", [["p.zeta_threshold", "SIn 0 (1#8)"], ["params.alpha", "SAny"], ["params.beta", "SNonneg"]]], true, true], "gga_c_zvpbeint": [["Gga false", [["p.zeta_threshold", "SIn 0 (1#8)"], ["params.omega", "SAny"], ["params.alpha", "SAny"], ["params.beta", "SNonneg"]]], true, true], "gga_c_zvpbeloc": [["Gga false", [["p.zeta_threshold", "SIn 0 (1#8)"]]], true, true], "gga_k_apbe": [["Gga false", [["params.kappa", "SPos"], ["params.mu", "SNonneg"]]], true, true], "gga_k_dk": [["Gga false", [["params.aa[0]", "SAny"], ["params.aa[1]", "SAny"], ["params.aa[2]", "SAny"], ["params.aa[3]", "SAny"], ["params.aa[4]", "SAny"], ["params.bb[0]", "SPos"], ["params.bb[1]", "SNonneg"], ["params.bb[2]", "SNonneg"], ["params.bb[3]", "SNonneg"], ["params.bb[4]", "SNonneg"]]], true, true], "gga_k_exp4": [["Gga false", []], true, true], "gga_k_lc94": [["Gga false", [["params.a", "SNonneg"], ["params.alpha", "SAny"], ["params.b", "SNonneg"], ["params.c", "SAny"], ["params.d", "SAny"], ["params.expo", "SPos"], ["params.f", "SNonneg"]]], true, true], "gga_k_lgap": [["Gga false", [["params.kappa", "SAny"], ["params.mu[0]", "SAny"], ["params.mu[1]", "SAny"], ["params.mu[2]", "SAny"]]], true, true], "gga_k_lgap_ge": [["Gga false", [["params.mu[0]", "SAny"], ["params.mu[1]", "SAny"], ["params.mu[2]", "SAny"]]], true, true], "gga_k_lkt": [["Gga false", [["params.a", "SAny"]]], true, true], "gga_k_llp": [["Gga false", [["params.beta", "SNonneg"], ["params.gamma", "SNonneg"]]], true, true], "gga_k_mpbe": [["Gga false", [["params.a", "SNonneg"], ["params.c1", "SAny"], ["params.c2", "SAny"], ["params.c3", "SAny"]]], true, true], "gga_k_ol1": [["Gga false", []], true, true], "gga_k_ol2": [["Gga false", [["params.aa", "SAny"], ["params.bb", "SAny"], ["params.cc", "SAny"]]], true, true], "gga_k_pearson": [["Gga false", []], true, true], "gga_k_pg": [["Gga false", [["params.pg_mu", "SAny"]]], true, true], "gga_k_pw86": [["Gga false", []], true, true], "gga_k_rational_p": [["Gga false", [["params.C2", "SNonneg"], ["params.p", "SPos"]]], true, true], "gga_k_tflw": [["Gga false", [["params.gamma", "SAny"], ["params.lambda_", "SAny"]]], true, true], "gga_k_thakkar": [["Gga false", []], true, true], "gga_k_vt84f": [["Gga false", [["params.alpha", "SAny"], ["params.mu", "SNonneg"]]], true, true], "gga_x_2d_b86": [["Gga false", []], true, true], "gga_x_2d_b86_mgc": [["Gga false", []], true, true], "gga_x_2d_b88": [["Gga false", []], true, true], "gga_x_2d_pbe": [["Gga false", []], true, true], "gga_x_airy": [["Gga false", []], true, true], "gga_x_ak13": [["Gga false", [["params.B1", "SAny"], ["params.B2", "SAny"]]], true, true], "gga_x_am05": [["Gga false", [["params.alpha", "SNonneg"], ["params.c", "SNonneg"]]], true, true], "gga_x_b86": [["Gga false", [["params.beta", "SAny"], ["params.gamma", "SNonneg"], ["params.omega", "SAny"]]], true, true], "gga_x_b88": [["Gga false", [["params.beta", "SNonneg"], ["params.gamma", "SNonneg"]]], true, true], "gga_x_bayesian": [["Gga false", []], true, true], "gga_x_beefvdw": [["Gga false", []], true, true], "gga_x_bpccac": [["Gga false", []], true, true], "gga_x_c09x": [["Gga false", []], true, true], "gga_x_cap": [["Gga false", [["params.alphaoAx", "SAny"], ["params.c", "SNonneg"]]], true, true], "gga_x_chachiyo": [["Gga true", []], true, true], "gga_x_dk87": [["Gga false", [["params.a1", "SAny"], ["params.alpha", "SPos"], ["params.b1", "SNonneg"]]], true, true], "gga_x_ev93": [["Gga false", [["params.a1", "SAny"], ["params.a2", "SAny"], ["params.a3", "SAny"], ["params.b1", "SNonneg"], ["params.b2", "SNonneg"], ["params.b3", "SNonneg"]]], true, true], "gga_x_ft97": [["Gga false", [["params.beta0", "SAny"], ["params.beta1", "SAny"], ["params.beta2", "SPos"]]], true, true], "gga_x_g96": [["Gga false", []], true, true], "gga_x_hcth_a": [["Gga false", []], true, true], "gga_x_herman": [["Gga false", []], true, true], "gga_x_hjs": [["Gga false", [["p.cam_omega", "SNonneg"], ["params.a[0]", "SNonneg"], ["params.a[1]", "SNonneg"], ["params.a[2]", "SNonneg"], ["params.a[3]", "SNonneg"], ["params.a[4]", "SNonneg"], ["params.a[5]", "SNonneg"], ["params.b[0]", "SNonneg"], ["params.b[1]", "SNonneg"], ["params.b[2]", "SNonneg"], ["params.b[3]", "SNonneg"], ["params.b[4]", "SNonneg"], ["params.b[5]", "SNonneg"], ["params.b[6]", "SNonneg"], ["params.b[7]", "SNonneg"], ["params.b[8]", "SNonneg"]]], true, true], "gga_x_htbs": [["Gga false", []], true, true], "gga_x_ityh": [["Gga false", [["p.cam_omega", "SPos"]]], true, true], "gga_x_ityh_optx": [["Gga false", [["p.cam_omega", "SPos"], ["params.a", "SPos"], ["params.b", "SNonneg"]]], true, true], "gga_x_ityh_pbe": [["Gga false", [["p.cam_omega", "SPos"], ["params.kappa", "SPos"], ["params.mu", "SNonneg"]]], true, true], "gga_x_kt": [["Gga false", [["params.delta", "SNonneg"], ["params.gamma", "SAny"]]], true, true], "gga_x_lag": [["Gga false", []], true, true], "gga_x_lg93": [["Gga false", []], true, true], "gga_x_lspbe": [["Gga false", [["params.alpha", "SAny"], ["params.kappa", "SPos"], ["params.mu", "SNonneg"]]], true, true], "gga_x_lsrpbe": [["Gga false", [["params.alpha", "SAny"], ["params.kappa", "SPos"], ["params.mu", "SAny"]]], true, true], "gga_x_lv_rpw86": [["Gga false", []], true, true], "gga_x_mpbe": [["Gga false", [["params.a", "SNonneg"], ["params.c1", "SAny"], ["params.c2", "SAny"], ["params.c3", "SAny"]]], true, true], "gga_x_n12": [["Gga false", [["params.CC[0][0]", "SAny"], ["params.CC[0][1]", "SAny"], ["params.CC[0][2]", "SAny"], ["params.CC[0][3]", "SAny"], ["params.CC[1][0]", "SAny"], ["params.CC[1][1]", "SAny"], ["params.CC[1][2]", "SAny"], ["params.CC[1][3]", "SAny"], ["params.CC[2][0]", "SAny"], ["params.CC[2][1]", "SAny"], ["params.CC[2][2]", "SAny"], ["params.CC[2][3]", "SAny"], ["params.CC[3][0]", "SAny"], ["params.CC[3][1]", "SAny"], ["params.CC[3][2]", "SAny"], ["params.CC[3][3]", "SAny"]]], true, true], "gga_x_ncap": [["Gga false", [["params.alpha", "SAny"], ["params.beta", "SNonneg"], ["params.mu", "SAny"], ["params.zeta", "SAny"]]], true, true], "gga_x_ol2": [["Gga false", [["params.aa", "SAny"], ["params.bb", "SAny"], ["params.cc", "SAny"]]], true, true], "gga_x_optx": [["Gga false", [["params.a", "SAny"], ["params.b", "SAny"], ["params.gamma", "SNonneg"]]], true, true], "gga_x_pbe": [["Gga false", [["params.kappa", "SPos"], ["params.mu", "SNonneg"]]], true, true], "gga_x_pbea": [["Gga false", []], true, true], "gga_x_pbepow": [["Gga false", []], true, true], "gga_x_pbetrans": [["Gga false", []], true, true], "gga_x_pw86": [["Gga false", [["params.aa", "SNonneg"], ["params.bb", "SNonneg"], ["params.cc", "SNonneg"]]], true, true], "gga_x_pw91": [["Gga false", [["params.a", "SNonneg"], ["params.alpha", "SAny"], ["params.b", "SNonneg"], ["params.c", "SAny"], ["params.d", "SAny"], ["params.expo", "SPos"], ["params.f", "SNonneg"]]], true, true], "gga_x_q1d": [["Gga false", []], true, true], "gga_x_q2d": [["Gga false", []], true, true], "gga_x_rge2": [["Gga false", []], true, true], "gga_x_rpbe": [["Gga false", [["params.rpbe_kappa", "SPos"], ["params.rpbe_mu", "SAny"]]], true, true], "gga_x_s12": [["Gga false", [["params.A", "SAny"], ["params.B", "SAny"], ["params.C", "SNonneg"], ["params.D", "SNonneg"], ["params.E", "SNonneg"], ["params.bx", "SAny"]]], true, true], "gga_x_sfat": [["Gga false", [["p.cam_omega", "SPos"]]], true, true], "gga_x_sfat_pbe": [["Gga false", [["p.cam_omega", "SPos"]]], true, true], "gga_x_sogga11": [["Gga false", [["params.a[0]", "SAny"], ["params.a[1]", "SAny"], ["params.a[2]", "SAny"], ["params.a[3]", "SAny"], ["params.a[4]", "SAny"], ["params.a[5]", "SAny"], ["params.b[0]", "SAny"], ["params.b[1]", "SAny"], ["params.b[2]", "SAny"], ["params.b[3]", "SAny"], ["params.b[4]", "SAny"], ["params.b[5]", "SAny"], ["params.kappa", "SPos"], ["params.mu", "SNonneg"]]], true, true], "gga_x_ssb_sw": [["Gga false", [["params.A", "SAny"], ["params.B", "SAny"], ["params.C", "SNonneg"], ["params.D", "SAny"], ["params.E", "SNonneg"]]], true, true], "gga_x_vmt": [["Gga false", [["params.alpha", "SAny"], ["params.mu", "SNonneg"]]], true, true], "gga_x_vmt84": [["Gga true", [["params.alpha", "SAny"], ["params.mu", "SNonneg"]]], true, true], "gga_x_wc": [["Gga false", []], true, true], "gga_xc_b97": [["Gga false", [["params.c_ab[0]", "SAny"], ["params.c_ab[1]", "SAny"], ["params.c_ab[2]", "SAny"], ["params.c_ab[3]", "SAny"], ["params.c_ab[4]", "SAny"], ["params.c_ss[0]", "SAny"], ["params.c_ss[1]", "SAny"], ["params.c_ss[2]", "SAny"], ["params.c_ss[3]", "SAny"], ["params.c_ss[4]", "SAny"], ["params.c_x[0]", "SAny"], ["params.c_x[1]", "SAny"], ["params.c_x[2]", "SAny"], ["params.c_x[3]", "SAny"], ["params.c_x[4]", "SAny"]]], true, true], "gga_xc_th1": [["Gga false", [["params.omega[0]", "SAny"], ["params.omega[10]", "SAny"], ["params.omega[11]", "SAny"], ["params.omega[12]", "SAny"], ["params.omega[13]", "SAny"], ["params.omega[14]", "SAny"], ["params.omega[15]", "SAny"], ["params.omega[16]", "SAny"], ["params.omega[17]", "SAny"], ["params.omega[18]", "SAny"], ["params.omega[19]", "SAny"], ["params.omega[1]", "SAny"], ["params.omega[20]", "SAny"], ["params.omega[2]", "SAny"], ["params.omega[3]", "SAny"], ["params.omega[4]", "SAny"], ["params.omega[5]", "SAny"], ["params.omega[6]", "SAny"], ["params.omega[7]", "SAny"], ["params.omega[8]", "SAny"], ["params.omega[9]", "SAny"]]], true, true], "gga_xc_th2": [["Gga false", []], true, true], "gga_xc_th3": [["Gga false", [["params.omega[0]", "SAny"], ["params.omega[10]", "SAny"], ["params.omega[11]", "SAny"], ["params.omega[12]", "SAny"], ["params.omega[13]", "SAny"], ["params.omega[14]", "SAny"], ["params.omega[15]", "SAny"], ["params.omega[16]", "SAny"], ["params.omega[17]", "SAny"], ["params.omega[18]", "SAny"], ["params.omega[1]", "SAny"], ["params.omega[2]", "SAny"], ["params.omega[3]", "SAny"], ["params.omega[4]", "SAny"], ["params.omega[5]", "SAny"], ["params.omega[6]", "SAny"], ["params.omega[7]", "SAny"], ["params.omega[8]", "SAny"], ["params.omega[9]", "SAny"]]], true, true], "hyb_gga_x_cam_s12": [["Gga false", [["p.cam_alpha", "SAny"], ["p.cam_beta", "SAny"], ["p.cam_omega", "SPos"], ["params.A", "SPos"], ["params.B", "SNonneg"], ["params.C", "SNonneg"], ["params.D", "SNonneg"], ["params.E", "SNonneg"]]], true, true], "hyb_gga_xc_wb97": [["Gga false", [["p.cam_omega", "SPos"], ["params.c_ab[0]", "SAny"], ["params.c_ab[1]", "SAny"], ["params.c_ab[2]", "SAny"], ["params.c_ab[3]", "SAny"], ["params.c_ab[4]", "SAny"], ["params.c_ss[0]", "SAny"], ["params.c_ss[1]", "SAny"], ["params.c_ss[2]", "SAny"], ["params.c_ss[3]", "SAny"], ["params.c_ss[4]", "SAny"], ["params.c_x[0]", "SAny"], ["params.c_x[1]", "SAny"], ["params.c_x[2]", "SAny"], ["params.c_x[3]", "SAny"], ["params.c_x[4]", "SAny"]]], true, true], "hyb_mgga_x_dldf": [["Mgga false", []], true, true], "hyb_mgga_x_m05": [["Mgga false", [["params.a[0]", "SAny"], ["params.a[10]", "SAny"], ["params.a[11]", "SAny"], ["params.a[1]", "SAny"], ["params.a[2]", "SAny"], ["params.a[3]", "SAny"], ["params.a[4]", "SAny"], ["params.a[5]", "SAny"], ["params.a[6]", "SAny"], ["params.a[7]", "SAny"], ["params.a[8]", "SAny"], ["params.a[9]", "SAny"], ["params.csi_HF", "SAny"]]], true, true], "hyb_mgga_x_pjs18": [["Mgga false", [["p.cam_omega", "SPos"]]], true, true], "hyb_mgga_xc_wb97mv": [["Mgga false", [["p.cam_omega", "SPos"], ["params.c_os[0]", "SAny"], ["params.c_os[1]", "SAny"], ["params.c_os[2]", "SAny"], ["params.c_os[3]", "SAny"], ["params.c_os[4]", "SAny"], ["params.c_os[5]", "SAny"], ["params.c_ss[0]", "SAny"], ["params.c_ss[1]", "SAny"], ["params.c_ss[2]", "SAny"], ["params.c_ss[3]", "SAny"], ["params.c_ss[4]", "SAny"], ["params.c_x[0]", "SAny"], ["params.c_x[1]", "SAny"], ["params.c_x[2]", "SAny"]]], true, true], "lda_c_1d_csc": [["Lda", [["params.ferro[0]", "SPos"], ["params.ferro[1]", "SNonneg"], ["params.ferro[2]", "SNonneg"], ["params.ferro[3]", "SNonneg"], ["params.ferro[4]", "SAny"], ["params.ferro[5]", "SAny"], ["params.ferro[6]", "SAny"], ["params.ferro[7]", "SNonneg"], ["params.ferro[8]", "SNonneg"], ["params.ferro[9]", "SAny"], ["params.para[0]", "SPos"], ["params.para[1]", "SNonneg"], ["params.para[2]", "SNonneg"], ["params.para[3]", "SNonneg"], ["params.para[4]", "SAny"], ["params.para[5]", "SAny"], ["params.para[6]", "SAny"], ["params.para[7]", "SNonneg"], ["params.para[8]", "SNonneg"], ["params.para[9]", "SAny"]]], true, true], "lda_c_1d_loos": [["Lda", []], true, true], "lda_c_2d_prm": [["Lda", [["params.c", "SNonneg"]]], true, true], "lda_c_chachiyo": [["Lda", [["params.af", "SAny"], ["params.ap", "SAny"], ["params.bf", "SNonneg"], ["params.bp", "SNonneg"], ["params.cf", "SNonneg"], ["params.cp", "SNonneg"]]], true, true], "lda_c_chachiyo_mod": [["Lda", [["params.af", "SAny"], ["params.ap", "SAny"], ["params.bf", "SNonneg"], ["params.bp", "SNonneg"], ["params.cf", "SNonneg"], ["params.cp", "SNonneg"]]], true, true], "lda_c_gk72": [["Lda", []], true, true], "lda_c_gombas": [["Lda", []], true, true], "lda_c_hl": [["Lda", [["params.hl_c[0]", "SAny"], ["params.hl_c[1]", "SAny"], ["params.hl_r[0]", "SPos"], ["params.hl_r[1]", "SPos"]]], true, true], "lda_c_lp96": [["Lda", [["params.C1", "SAny"], ["params.C2", "SAny"], ["params.C3", "SAny"]]], true, true], "lda_c_ml1": [["Lda", [["params.fc", "SPos"], ["params.q", "SAny"]]], true, true], "lda_c_pmgb06": [["Lda", [["p.cam_omega", "SNonneg"]]], true, true], "lda_c_pw": [["Lda", [["params.a[0]", "SPos"], ["params.a[1]", "SPos"], ["params.a[2]", "SPos"], ["params.alpha1[0]", "SAny"], ["params.alpha1[1]", "SAny"], ["params.alpha1[2]", "SAny"], ["params.beta1[0]", "SNonneg"], ["params.beta1[1]", "SNonneg"], ["params.beta1[2]", "SNonneg"], ["params.beta2[0]", "SNonneg"], ["params.beta2[1]", "SNonneg"], ["params.beta2[2]", "SNonneg"], ["params.beta3[0]", "SNonneg"], ["params.beta3[1]", "SNonneg"], ["params.beta3[2]", "SNonneg"], ["params.beta4[0]", "SPos"], ["params.beta4[1]", "SPos"], ["params.beta4[2]", "SPos"], ["params.fz20", "SPos"], ["params.pp[0]", "SAny"], ["params.pp[1]", "SAny"], ["params.pp[2]", "SAny"]]], true, true], "lda_c_pz": [["Lda", [["params.a[0]", "SAny"], ["params.a[1]", "SAny"], ["params.b[0]", "SAny"], ["params.b[1]", "SAny"], ["params.beta1[0]", "SNonneg"], ["params.beta1[1]", "SNonneg"], ["params.beta2[0]", "SNonneg"], ["params.beta2[1]", "SNonneg"], ["params.c[0]", "SAny"], ["params.c[1]", "SAny"], ["params.d[0]", "SAny"], ["params.d[1]", "SAny"], ["params.gamma[0]", "SAny"], ["params.gamma[1]", "SAny"]]], true, true], "lda_c_rc04": [["Lda", []], true, true], "lda_c_rpa": [["Lda", []], true, true], "lda_c_vwn": [["Lda", []], true, true], "lda_c_vwn_1": [["Lda", []], true, true], "lda_c_vwn_2": [["Lda", []], true, true], "lda_c_vwn_4": [["Lda", []], true, true], "lda_c_vwn_rpa": [["Lda", []], true, true], "lda_c_wigner": [["Lda", [["params.a", "SAny"], ["params.b", "SNonneg"]]], true, true], "lda_k_gds08_worker": [["Lda", [["params.A", "SAny"], ["params.B", "SAny"], ["params.C", "SAny"]]], true, true], "lda_k_tf": [["Lda", [["params.ax", "SAny"]]], true, true], "lda_k_zlp": [["Lda", []], true, true], "lda_x": [["Lda", [["params.alpha", "SAny"]]], true, true], "lda_x_2d": [["Lda", []], true, true], "lda_x_erf": [["Lda", [["p.cam_omega", "SPos"]]], true, true], "lda_x_rel": [["Lda", []], true, true], "lda_x_sloc": [["Lda", [["params.a", "SAny"], ["params.b", "SNonneg"]]], true, true], "lda_x_yukawa": [["Lda", [["p.cam_omega", "SPos"]]], true, true], "lda_xc_1d_ehwlrg": [["Lda", [["params.a1", "SAny"], ["params.a2", "SAny"], ["params.a3", "SAny"], ["params.alpha", "SAny"]]], true, true], "lda_xc_teter93": [["Lda", []], true, true], "lda_xc_tih": [["Lda", []], true, true], "lda_xc_zlp": [["Lda", []], true, true], "mgga_c_b88": [["Mgga false", []], true, true], "mgga_c_bc95": [["Mgga false", [["params.copp", "SNonneg"], ["params.css", "SNonneg"]]], true, true], "mgga_c_cc": [["Mgga false", []], true, true], "mgga_c_cs": [["Mgga false", []], true, true], "mgga_c_ltapw": [["Mgga false", [["params.ltafrac", "SAny"]]], true, true], "mgga_c_m05": [["Mgga false", [["params.Fermi_D_cnst", "SPos"], ["params.cab[0]", "SAny"], ["params.cab[1]", "SAny"], ["params.cab[2]", "SAny"], ["params.cab[3]", "SAny"], ["params.cab[4]", "SAny"], ["params.css[0]", "SAny"], ["params.css[1]", "SAny"], ["params.css[2]", "SAny"], ["params.css[3]", "SAny"], ["params.css[4]", "SAny"], ["params.gamma_ab", "SNonneg"], ["params.gamma_ss", "SNonneg"]]], true, true], "mgga_c_m08": [["Mgga false", [["p.zeta_threshold", "SIn 0 (1#8)"], ["params.m08_a[0]", "SAny"], ["params.m08_a[1]", "SAny"], ["params.m08_a[2]", "SAny"], ["params.m08_a[3]", "SAny"], ["params.m08_a[4]", "SAny"], ["params.m08_a[5]", "SAny"], ["params.m08_a[6]", "SAny"], ["params.m08_a[7]", "SAny"], ["params.m08_a[8]", "SAny"], ["params.m08_a[9]", "SAny"], ["params.m08_a[10]", "SAny"], ["params.m08_a[11]", "SAny"], ["params.m08_b[0]", "SAny"], ["params.m08_b[1]", "SAny"], ["params.m08_b[2]", "SAny"], ["params.m08_b[3]", "SAny"], ["params.m08_b[4]", "SAny"], ["params.m08_b[5]", "SAny"], ["params.m08_b[6]", "SAny"], ["params.m08_b[7]", "SAny"], ["params.m08_b[8]", "SAny"], ["params.m08_b[9]", "SAny"], ["params.m08_b[10]", "SAny"], ["params.m08_b[11]", "SAny"]]], true, true], "mgga_c_rppscan": [["Mgga false", [["p.zeta_threshold", "SIn 0 (1#8)"], ["params.eta", "SNonneg"]]], true, true], "mgga_c_rscan": [["Mgga false", [["p.zeta_threshold", "SIn 0 (1#8)"]]], true, true], "mgga_k_gea2": [["Mgga false", []], true, true], "mgga_k_gea4": [["Mgga false", []], true, true], "mgga_k_pgslb": [["Mgga false", [["params.pgslb_beta", "SAny"], ["params.pgslb_mu", "SAny"]]], true, true], "mgga_x_2d_js17": [["Mgga false", []], true, true], "mgga_x_gdme": [["Mgga false", [["params.AA", "SAny"], ["params.BB", "SAny"], ["params.a", "SAny"]]], true, true], "mgga_x_gvt4": [["Mgga false", []], true, true], "mgga_x_lta": [["Mgga false", [["params.ltafrac", "SAny"]]], true, true], "mgga_x_m06l": [["Mgga false", [["params.a[0]", "SAny"], ["params.a[10]", "SAny"], ["params.a[11]", "SAny"], ["params.a[1]", "SAny"], ["params.a[2]", "SAny"], ["params.a[3]", "SAny"], ["params.a[4]", "SAny"], ["params.a[5]", "SAny"], ["params.a[6]", "SAny"], ["params.a[7]", "SAny"], ["params.a[8]", "SAny"], ["params.a[9]", "SAny"], ["params.d[0]", "SAny"], ["params.d[1]", "SAny"], ["params.d[2]", "SAny"], ["params.d[3]", "SAny"], ["params.d[4]", "SAny"], ["params.d[5]", "SAny"]]], true, true], "mgga_x_m08": [["Mgga false", [["params.a[0]", "SAny"], ["params.a[10]", "SAny"], ["params.a[11]", "SAny"], ["params.a[1]", "SAny"], ["params.a[2]", "SAny"], ["params.a[3]", "SAny"], ["params.a[4]", "SAny"], ["params.a[5]", "SAny"], ["params.a[6]", "SAny"], ["params.a[7]", "SAny"], ["params.a[8]", "SAny"], ["params.a[9]", "SAny"], ["params.b[0]", "SAny"], ["params.b[10]", "SAny"], ["params.b[11]", "SAny"], ["params.b[1]", "SAny"], ["params.b[2]", "SAny"], ["params.b[3]", "SAny"], ["params.b[4]", "SAny"], ["params.b[5]", "SAny"], ["params.b[6]", "SAny"], ["params.b[7]", "SAny"], ["params.b[8]", "SAny"], ["params.b[9]", "SAny"]]], true, true], "mgga_x_m11": [["Mgga false", [["p.cam_omega", "SPos"], ["params.a[0]", "SAny"], ["params.a[10]", "SAny"], ["params.a[11]", "SAny"], ["params.a[1]", "SAny"], ["params.a[2]", "SAny"], ["params.a[3]", "SAny"], ["params.a[4]", "SAny"], ["params.a[5]", "SAny"], ["params.a[6]", "SAny"], ["params.a[7]", "SAny"], ["params.a[8]", "SAny"], ["params.a[9]", "SAny"], ["params.b[0]", "SAny"], ["params.b[10]", "SAny"], ["params.b[11]", "SAny"], ["params.b[1]", "SAny"], ["params.b[2]", "SAny"], ["params.b[3]", "SAny"], ["params.b[4]", "SAny"], ["params.b[5]", "SAny"], ["params.b[6]", "SAny"], ["params.b[7]", "SAny"], ["params.b[8]", "SAny"], ["params.b[9]", "SAny"]]], true, true], "mgga_x_m11_l": [["Mgga false", [["p.cam_omega", "SPos"], ["params.a[0]", "SAny"], ["params.a[10]", "SAny"], ["params.a[11]", "SAny"], ["params.a[1]", "SAny"], ["params.a[2]", "SAny"], ["params.a[3]", "SAny"], ["params.a[4]", "SAny"], ["params.a[5]", "SAny"], ["params.a[6]", "SAny"], ["params.a[7]", "SAny"], ["params.a[8]", "SAny"], ["params.a[9]", "SAny"], ["params.b[0]", "SAny"], ["params.b[10]", "SAny"], ["params.b[11]", "SAny"], ["params.b[1]", "SAny"], ["params.b[2]", "SAny"], ["params.b[3]", "SAny"], ["params.b[4]", "SAny"], ["params.b[5]", "SAny"], ["params.b[6]", "SAny"], ["params.b[7]", "SAny"], ["params.b[8]", "SAny"], ["params.b[9]", "SAny"], ["params.c[0]", "SAny"], ["params.c[10]", "SAny"], ["params.c[11]", "SAny"], ["params.c[1]", "SAny"], ["params.c[2]", "SAny"], ["params.c[3]", "SAny"], ["params.c[4]", "SAny"], ["params.c[5]", "SAny"], ["params.c[6]", "SAny"], ["params.c[7]", "SAny"], ["params.c[8]", "SAny"], ["params.c[9]", "SAny"], ["params.d[0]", "SAny"], ["params.d[10]", "SAny"], ["params.d[11]", "SAny"], ["params.d[1]", "SAny"], ["params.d[2]", "SAny"], ["params.d[3]", "SAny"], ["params.d[4]", "SAny"], ["params.d[5]", "SAny"], ["params.d[6]", "SAny"], ["params.d[7]", "SAny"], ["params.d[8]", "SAny"], ["params.d[9]", "SAny"]]], true, true], "mgga_x_mbeef": [["Mgga false", []], true, true], "mgga_x_mbeefvdw": [["Mgga false", []], true, true], "mgga_x_mcml": [["Mgga false", []], true, true], "mgga_x_mn12": [["Mgga false", [["params.c[0]", "SAny"], ["params.c[10]", "SAny"], ["params.c[11]", "SAny"], ["params.c[12]", "SAny"], ["params.c[13]", "SAny"], ["params.c[14]", "SAny"], ["params.c[15]", "SAny"], ["params.c[16]", "SAny"], ["params.c[17]", "SAny"], ["params.c[18]", "SAny"], ["params.c[19]", "SAny"], ["params.c[1]", "SAny"], ["params.c[20]", "SAny"], ["params.c[21]", "SAny"], ["params.c[22]", "SAny"], ["params.c[23]", "SAny"], ["params.c[24]", "SAny"], ["params.c[25]", "SAny"], ["params.c[26]", "SAny"], ["params.c[27]", "SAny"], ["params.c[28]", "SAny"], ["params.c[29]", "SAny"], ["params.c[2]", "SAny"], ["params.c[30]", "SAny"], ["params.c[31]", "SAny"], ["params.c[32]", "SAny"], ["params.c[33]", "SAny"], ["params.c[34]", "SAny"], ["params.c[35]", "SAny"], ["params.c[36]", "SAny"], ["params.c[37]", "SAny"], ["params.c[38]", "SAny"], ["params.c[39]", "SAny"], ["params.c[3]", "SAny"], ["params.c[4]", "SAny"], ["params.c[5]", "SAny"], ["params.c[6]", "SAny"], ["params.c[7]", "SAny"], ["params.c[8]", "SAny"], ["params.c[9]", "SAny"]]], true, true], "mgga_x_mvs": [["Mgga false", [["params.b", "SNonneg"], ["params.c1", "SNonneg"], ["params.e1", "SNonneg"], ["params.k0", "SAny"]]], true, true], "mgga_x_tau_hcth": [["Mgga false", [["params.cx_local[0]", "SAny"], ["params.cx_local[1]", "SAny"], ["params.cx_local[2]", "SAny"], ["params.cx_local[3]", "SAny"], ["params.cx_nlocal[0]", "SAny"], ["params.cx_nlocal[1]", "SAny"], ["params.cx_nlocal[2]", "SAny"], ["params.cx_nlocal[3]", "SAny"]]], true, true], "mgga_x_th": [["Mgga false", []], true, true], "mgga_x_vcml": [["Mgga false", []], true, true], "mgga_xc_b97mv": [["Mgga false", [["params.c_os[0]", "SAny"], ["params.c_os[1]", "SAny"], ["params.c_os[2]", "SAny"], ["params.c_os[3]", "SAny"], ["params.c_os[4]", "SAny"], ["params.c_ss[0]", "SAny"], ["params.c_ss[1]", "SAny"], ["params.c_ss[2]", "SAny"], ["params.c_ss[3]", "SAny"], ["params.c_ss[4]", "SAny"], ["params.c_x[0]", "SAny"], ["params.c_x[1]", "SAny"], ["params.c_x[2]", "SAny"], ["params.c_x[3]", "SAny"], ["params.c_x[4]", "SAny"]]], true, true], "mgga_xc_b98": [["Mgga false", []], true, true], "mgga_xc_lp90": [["Mgga false", []], true, true], "mgga_xc_zlp": [["Mgga false", []], true, true], "gga_c_optc": [["Gga false", [["p.zeta_threshold", "SIn 0 (1#8)"], ["params.c2", "SAny"], ["params.c1", "SAny"]]], true, true], "gga_x_wpbeh": [["Gga false", [["p.cam_omega", "SAny"]]], true, true], "mgga_c_pkzb": [["Mgga false", [["p.zeta_threshold", "SIn 0 (1#8)"]]], true, true], "mgga_c_rregtm": [["Mgga false", [["p.zeta_threshold", "SIn 0 (1#8)"]]], true, true], "mgga_c_scan": [["Mgga false", [["p.zeta_threshold", "SIn 0 (1#8)"]]], true, true]}, "ndom": {"gga_x_2d_b86": [["Gga false", []], true, true], "gga_x_2d_b86_mgc": [["Gga false", []], true, true], "gga_x_2d_b88": [["Gga false", []], true, true], "gga_x_2d_pbe": [["Gga false", []], true, true], "gga_x_ak13": [["Gga false", [["params.B1", "SNonneg"], ["params.B2", "SNonneg"]]], true, true], "gga_x_b86": [["Gga false", [["params.beta", "SNonneg"], ["params.gamma", "SNonneg"], ["params.omega", "SAny"]]], true, true], "gga_x_b88": [["Gga false", [["params.beta", "SNonneg"], ["params.gamma", "SNonneg"]]], true, true], "gga_x_bayesian": [["Gga false", []], true, true], "gga_x_c09x": [["Gga false", []], true, true], "gga_x_chachiyo": [["Gga true", []], true, true], "gga_x_dk87": [["Gga false", [["params.a1", "SNonneg"], ["params.alpha", "SPos"], ["params.b1", "SNonneg"]]], true, true], "gga_x_ev93": [["Gga false", [["params.a1", "SNonneg"], ["params.a2", "SNonneg"], ["params.a3", "SNonneg"], ["params.b1", "SNonneg"], ["params.b2", "SNonneg"], ["params.b3", "SNonneg"]]], true, true], "gga_x_ft97": [["Gga false", [["params.beta0", "SNonneg"], ["params.beta1", "SNonneg"], ["params.beta2", "SPos"]]], true, true], "gga_x_g96": [["Gga false", []], true, true], "gga_x_herman": [["Gga false", []], true, true], "gga_x_lag": [["Gga false", []], true, true], "gga_x_lg93": [["Gga false", []], true, true], "gga_x_lv_rpw86": [["Gga false", []], true, true], "gga_x_mpbe": [["Gga false", [["params.a", "SNonneg"], ["params.c1", "SNonneg"], ["params.c2", "SNonneg"], ["params.c3", "SNonneg"]]], true, true], "gga_x_n12": [["Gga false", [["params.CC[0][0]", "SNonneg"], ["params.CC[0][1]", "SNonneg"], ["params.CC[0][2]", "SNonneg"], ["params.CC[0][3]", "SNonneg"], ["params.CC[1][0]", "SNonneg"], ["params.CC[1][1]", "SNonneg"], ["params.CC[1][2]", "SNonneg"], ["params.CC[1][3]", "SNonneg"], ["params.CC[2][0]", "SNonneg"], ["params.CC[2][1]", "SNonneg"], ["params.CC[2][2]", "SNonneg"], ["params.CC[2][3]", "SNonneg"], ["params.CC[3][0]", "SNonneg"], ["params.CC[3][1]", "SNonneg"], ["params.CC[3][2]", "SNonneg"], ["params.CC[3][3]", "SNonneg"]]], true, true], "gga_x_ol2": [["Gga false", [["params.aa", "SNonneg"], ["params.bb", "SNonneg"], ["params.cc", "SNonneg"]]], true, true], "gga_x_optx": [["Gga false", [["params.a", "SNonneg"], ["params.b", "SNonneg"], ["params.gamma", "SNonneg"]]], true, true], "gga_x_pbe": [["Gga false", [["params.kappa", "SPos"], ["params.mu", "SNonneg"]]], true, true], "gga_x_pbetrans": [["Gga false", []], true, true], "gga_x_pw86": [["Gga false", [["params.aa", "SNonneg"], ["params.bb", "SNonneg"], ["params.cc", "SNonneg"]]], true, true], "gga_x_rge2": [["Gga false", []], true, true], "gga_x_rpbe": [["Gga false", [["params.rpbe_kappa", "SPos"], ["params.rpbe_mu", "SNonneg"]]], true, true], "gga_x_s12": [["Gga false", [["params.A", "SNonneg"], ["params.B", "SNonneg"], ["params.C", "SNonneg"], ["params.D", "SNonneg"], ["params.E", "SNonneg"], ["params.bx", "SNonneg"]]], true, true], "gga_x_sogga11": [["Gga false", [["params.a[0]", "SNonneg"], ["params.a[1]", "SNonneg"], ["params.a[2]", "SNonneg"], ["params.a[3]", "SNonneg"], ["params.a[4]", "SNonneg"], ["params.a[5]", "SNonneg"], ["params.b[0]", "SNonneg"], ["params.b[1]", "SNonneg"], ["params.b[2]", "SNonneg"], ["params.b[3]", "SNonneg"], ["params.b[4]", "SNonneg"], ["params.b[5]", "SNonneg"], ["params.kappa", "SPos"], ["params.mu", "SNonneg"]]], true, true], "gga_x_vmt": [["Gga false", [["params.alpha", "SAny"], ["params.mu", "SNonneg"]]], true, true], "gga_x_wc": [["Gga false", []], true, true], "lda_x": [["Lda", [["params.alpha", "SNonneg"]]], true, true], "lda_x_2d": [["Lda", []], true, true], "lda_x_sloc": [["Lda", [["params.a", "SNonneg"], ["params.b", "SNonneg"]]], true, true], "lda_xc_teter93": [["Lda", []], false, true], "mgga_x_lta": [["Mgga false", [["params.ltafrac", "SAny"]]], true, true], "mgga_x_th": [["Mgga false", []], true, true]}, "kdom": {"gga_k_apbe": [["Gga false", [["params.kappa", "SPos"], ["params.mu", "SNonneg"]]], true, true], "gga_k_dk": [["Gga false", [["params.aa[0]", "SNonneg"], ["params.aa[1]", "SNonneg"], ["params.aa[2]", "SNonneg"], ["params.aa[3]", "SNonneg"], ["params.aa[4]", "SNonneg"], ["params.bb[0]", "SPos"], ["params.bb[1]", "SNonneg"], ["params.bb[2]", "SNonneg"], ["params.bb[3]", "SNonneg"], ["params.bb[4]", "SNonneg"]]], true, true], "gga_k_lgap": [["Gga false", [["params.kappa", "SNonneg"], ["params.mu[0]", "SNonneg"], ["params.mu[1]", "SNonneg"], ["params.mu[2]", "SNonneg"]]], true, true], "gga_k_lgap_ge": [["Gga false", [["params.mu[0]", "SNonneg"], ["params.mu[1]", "SNonneg"], ["params.mu[2]", "SNonneg"]]], true, true], "gga_k_lkt": [["Gga false", [["params.a", "SAny"]]], true, true], "gga_k_llp": [["Gga false", [["params.beta", "SNonneg"], ["params.gamma", "SNonneg"]]], true, true], "gga_k_mpbe": [["Gga false", [["params.a", "SNonneg"], ["params.c1", "SNonneg"], ["params.c2", "SNonneg"], ["params.c3", "SNonneg"]]], true, true], "gga_k_ol1": [["Gga false", []], true, true], "gga_k_ol2": [["Gga false", [["params.aa", "SNonneg"], ["params.bb", "SNonneg"], ["params.cc", "SNonneg"]]], true, true], "gga_k_pearson": [["Gga false", []], true, true], "gga_k_pg": [["Gga false", [["params.pg_mu", "SAny"]]], true, true], "gga_k_pw86": [["Gga false", []], true, true], "gga_k_rational_p": [["Gga false", [["params.C2", "SNonneg"], ["params.p", "SPos"]]], true, true], "gga_k_tflw": [["Gga false", [["params.gamma", "SNonneg"], ["params.lambda_", "SNonneg"]]], true, true], "lda_k_tf": [["Lda", [["params.ax", "SNonneg"]]], true, true], "mgga_k_pgslb": [["Mgga false", [["params.pgslb_beta", "SNonneg"], ["params.pgslb_mu", "SNonneg"]]], true, true]}, "smooth": {"unpol": ["gga_c_am05", "gga_c_bmk", "gga_c_chachiyo", "gga_c_cs1", "gga_c_hcth_a", "gga_c_lyp", "gga_c_lypr", "gga_c_optc", "gga_c_pbe", "gga_c_pbeloc", "gga_c_pw91", "gga_c_regtpss", "gga_c_scan_e0", "gga_c_sogga11", "gga_c_zvpbeloc", "gga_k_apbe", "gga_k_dk", "gga_k_exp4", "gga_k_mpbe", "gga_k_pearson", "gga_k_pg", "gga_k_pw86", "gga_k_rational_p", "gga_k_tflw", "gga_x_2d_b86", "gga_x_2d_b86_mgc", "gga_x_2d_pbe", "gga_x_b86", "gga_x_beefvdw", "gga_x_c09x", "gga_x_chachiyo", "gga_x_ev93", "gga_x_ft97", "gga_x_herman", "gga_x_kt", "gga_x_lg93", "gga_x_lspbe", "gga_x_lsrpbe", "gga_x_lv_rpw86", "gga_x_mpbe", "gga_x_n12", "gga_x_optx", "gga_x_pbe", "gga_x_pbea", "gga_x_pbepow", "gga_x_pw86", "gga_x_q1d", "gga_x_rge2", "gga_x_rpbe", "gga_x_s12", "gga_x_sogga11", "gga_x_ssb_sw", "gga_x_vmt", "gga_x_vmt84", "gga_x_wc", "hyb_mgga_x_dldf", "hyb_mgga_x_m05", "lda_c_1d_csc", "lda_c_1d_loos", "lda_c_2d_prm", "lda_c_chachiyo", "lda_c_chachiyo_mod", "lda_c_gombas", "lda_c_hl", "lda_c_lp96", "lda_c_ml1", "lda_c_pmgb06", "lda_c_pw", "lda_c_rc04", "lda_c_rpa", "lda_c_vwn", "lda_c_vwn_1", "lda_c_vwn_2", "lda_c_vwn_4", "lda_c_vwn_rpa", "lda_c_wigner", "lda_k_gds08_worker", "lda_k_tf", "lda_k_zlp", "lda_x", "lda_x_2d", "lda_x_rel", "lda_x_sloc", "lda_xc_1d_ehwlrg", "lda_xc_teter93", "lda_xc_tih", "lda_xc_zlp", "mgga_c_b88", "mgga_c_bc95", "mgga_c_cc", "mgga_c_cs", "mgga_c_ltapw", "mgga_c_m05", "mgga_c_m08", "mgga_c_pkzb", "mgga_k_gea2", "mgga_k_gea4", "mgga_k_pgslb", "mgga_x_2d_js17", "mgga_x_gdme", "mgga_x_gvt4", "mgga_x_lta", "mgga_x_m06l", "mgga_x_m08", "mgga_x_mn12", "mgga_x_mvs", "mgga_x_tau_hcth", "mgga_x_th", "mgga_xc_b98", "mgga_xc_lp90", "mgga_xc_zlp"], "unpol_sloped": ["gga_c_acgga", "gga_c_acggap", "gga_c_ccdf", "gga_c_lm", "gga_c_p86vwn", "gga_c_revtca", "gga_c_sg4", "gga_c_tca", "gga_c_wi", "gga_c_wl", "gga_c_zpbeint", "gga_c_zvpbeint", "gga_k_lc94", "gga_k_lgap", "gga_k_lgap_ge", "gga_k_llp", "gga_k_ol1", "gga_k_ol2", "gga_k_thakkar", "gga_x_2d_b88", "gga_x_airy", "gga_x_ak13", "gga_x_b88", "gga_x_bayesian", "gga_x_bpccac", "gga_x_cap", "gga_x_dk87", "gga_x_g96", "gga_x_hcth_a", "gga_x_lag", "gga_x_ncap", "gga_x_ol2", "gga_x_pbetrans", "gga_x_pw91", "gga_x_q2d", "gga_xc_th1", "gga_xc_th2", "gga_xc_th3"], "pol": ["gga_c_am05", "gga_c_bmk", "gga_c_cs1", "gga_c_hcth_a", "gga_c_lyp", "gga_c_lypr", "gga_c_optc", "gga_c_pbe", "gga_c_pbeloc", "gga_c_pw91", "gga_c_regtpss", "gga_c_scan_e0", "gga_c_sogga11", "lda_c_1d_csc", "lda_c_1d_loos", "lda_c_2d_prm", "lda_c_chachiyo", "lda_c_chachiyo_mod", "lda_c_gombas", "lda_c_hl", "lda_c_lp96", "lda_c_pmgb06", "lda_c_pw", "lda_c_rc04", "lda_c_rpa", "lda_c_vwn", "lda_c_vwn_1", "lda_c_vwn_2", "lda_c_vwn_4", "lda_c_vwn_rpa", "lda_c_wigner", "lda_k_gds08_worker", "lda_k_tf", "lda_k_zlp", "lda_x", "lda_x_2d", "lda_x_rel", "lda_x_sloc", "lda_xc_1d_ehwlrg", "lda_xc_teter93", "lda_xc_tih", "lda_xc_zlp", "mgga_c_b88", "mgga_c_bc95", "mgga_c_cc", "mgga_c_cs", "mgga_c_m05", "mgga_c_m08", "mgga_c_pkzb", "mgga_xc_b98", "mgga_xc_lp90", "mgga_xc_zlp"], "pol_sloped": ["gga_c_acgga", "gga_c_acggap", "gga_c_ccdf", "gga_c_lm", "gga_c_p86vwn", "gga_c_sg4", "gga_c_tca", "gga_c_wi", "gga_c_zpbeint", "gga_xc_th1", "gga_xc_th2", "gga_xc_th3"]}}