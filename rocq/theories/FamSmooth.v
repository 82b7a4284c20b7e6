(** Differentiability for lists of functionals: runs of the check of SmoothCheck.v on inputs with
    non-zero gradients, and the lists. Written by tools/gen_domains.py. *)
From Coq Require Import List QArith.
From Verif Require Import Bytes Syntax Parser PostProcess Src Ast Semantics Families Interval Absint Defined Exact Domains Library Fam FamExact
  SmoothCheck SmoothFam FamDefP FamDefU FamLib.
Import ListNotations.

Definition with_slope (p : source * domain) : source * domain := (fst p, sloped (snd p)).
Lemma Forall_slope (P : domain -> source -> Prop) l :
  Forall (fun p => P (sloped (snd p)) (fst p)) l -> Forall (fun p => P (snd p) (fst p)) (map with_slope l).
Proof. induction 1; constructor; assumption. Qed.

(** ** unpolarized *)
Definition smooth_unpol_functionals : list (source * domain) := [
  (f_gga_c_am05, d_gga_c_am05); (f_gga_c_bmk, d_gga_c_bmk); (f_gga_c_chachiyo, d_gga_c_chachiyo);
  (f_gga_c_cs1, d_gga_c_cs1); (f_gga_c_hcth_a, d_gga_c_hcth_a); (f_gga_c_lyp, d_gga_c_lyp);
  (f_gga_c_lypr, d_gga_c_lypr); (f_gga_c_optc, d_gga_c_optc); (f_gga_c_pbe, d_gga_c_pbe);
  (f_gga_c_pbeloc, d_gga_c_pbeloc); (f_gga_c_pw91, d_gga_c_pw91);
  (f_gga_c_regtpss, d_gga_c_regtpss); (f_gga_c_scan_e0, d_gga_c_scan_e0);
  (f_gga_c_sogga11, d_gga_c_sogga11); (f_gga_c_zvpbeloc, d_gga_c_zvpbeloc);
  (f_gga_k_apbe, d_gga_k_apbe); (f_gga_k_dk, d_gga_k_dk); (f_gga_k_exp4, d_gga_k_exp4);
  (f_gga_k_mpbe, d_gga_k_mpbe); (f_gga_k_pearson, d_gga_k_pearson); (f_gga_k_pg, d_gga_k_pg);
  (f_gga_k_pw86, d_gga_k_pw86); (f_gga_k_rational_p, d_gga_k_rational_p);
  (f_gga_k_tflw, d_gga_k_tflw); (f_gga_x_2d_b86, d_gga_x_2d_b86);
  (f_gga_x_2d_b86_mgc, d_gga_x_2d_b86_mgc); (f_gga_x_2d_pbe, d_gga_x_2d_pbe);
  (f_gga_x_b86, d_gga_x_b86); (f_gga_x_beefvdw, d_gga_x_beefvdw); (f_gga_x_c09x, d_gga_x_c09x);
  (f_gga_x_chachiyo, d_gga_x_chachiyo); (f_gga_x_ev93, d_gga_x_ev93);
  (f_gga_x_ft97, d_gga_x_ft97); (f_gga_x_herman, d_gga_x_herman); (f_gga_x_kt, d_gga_x_kt);
  (f_gga_x_lg93, d_gga_x_lg93); (f_gga_x_lspbe, d_gga_x_lspbe); (f_gga_x_lsrpbe, d_gga_x_lsrpbe);
  (f_gga_x_lv_rpw86, d_gga_x_lv_rpw86); (f_gga_x_mpbe, d_gga_x_mpbe); (f_gga_x_n12, d_gga_x_n12);
  (f_gga_x_optx, d_gga_x_optx); (f_gga_x_pbe, d_gga_x_pbe); (f_gga_x_pbea, d_gga_x_pbea);
  (f_gga_x_pbepow, d_gga_x_pbepow); (f_gga_x_pw86, d_gga_x_pw86); (f_gga_x_q1d, d_gga_x_q1d);
  (f_gga_x_rge2, d_gga_x_rge2); (f_gga_x_rpbe, d_gga_x_rpbe); (f_gga_x_s12, d_gga_x_s12);
  (f_gga_x_sogga11, d_gga_x_sogga11); (f_gga_x_ssb_sw, d_gga_x_ssb_sw);
  (f_gga_x_vmt, d_gga_x_vmt); (f_gga_x_vmt84, d_gga_x_vmt84); (f_gga_x_wc, d_gga_x_wc);
  (f_hyb_mgga_x_dldf, d_hyb_mgga_x_dldf); (f_hyb_mgga_x_m05, d_hyb_mgga_x_m05);
  (f_lda_c_1d_csc, d_lda_c_1d_csc); (f_lda_c_1d_loos, d_lda_c_1d_loos);
  (f_lda_c_2d_prm, d_lda_c_2d_prm); (f_lda_c_chachiyo, d_lda_c_chachiyo);
  (f_lda_c_chachiyo_mod, d_lda_c_chachiyo_mod); (f_lda_c_gombas, d_lda_c_gombas);
  (f_lda_c_hl, d_lda_c_hl); (f_lda_c_lp96, d_lda_c_lp96); (f_lda_c_ml1, d_lda_c_ml1);
  (f_lda_c_pmgb06, d_lda_c_pmgb06); (f_lda_c_pw, d_lda_c_pw); (f_lda_c_rc04, d_lda_c_rc04);
  (f_lda_c_rpa, d_lda_c_rpa); (f_lda_c_vwn, d_lda_c_vwn); (f_lda_c_vwn_1, d_lda_c_vwn_1);
  (f_lda_c_vwn_2, d_lda_c_vwn_2); (f_lda_c_vwn_4, d_lda_c_vwn_4);
  (f_lda_c_vwn_rpa, d_lda_c_vwn_rpa); (f_lda_c_wigner, d_lda_c_wigner);
  (f_lda_k_gds08_worker, d_lda_k_gds08_worker); (f_lda_k_tf, d_lda_k_tf);
  (f_lda_k_zlp, d_lda_k_zlp); (f_lda_x, d_lda_x); (f_lda_x_2d, d_lda_x_2d);
  (f_lda_x_rel, d_lda_x_rel); (f_lda_x_sloc, d_lda_x_sloc);
  (f_lda_xc_1d_ehwlrg, d_lda_xc_1d_ehwlrg); (f_lda_xc_teter93, d_lda_xc_teter93);
  (f_lda_xc_tih, d_lda_xc_tih); (f_lda_xc_zlp, d_lda_xc_zlp); (f_mgga_c_b88, d_mgga_c_b88);
  (f_mgga_c_bc95, d_mgga_c_bc95); (f_mgga_c_cc, d_mgga_c_cc); (f_mgga_c_cs, d_mgga_c_cs);
  (f_mgga_c_ltapw, d_mgga_c_ltapw); (f_mgga_c_m05, d_mgga_c_m05); (f_mgga_c_m08, d_mgga_c_m08);
  (f_mgga_c_pkzb, d_mgga_c_pkzb); (f_mgga_k_gea2, d_mgga_k_gea2); (f_mgga_k_gea4, d_mgga_k_gea4);
  (f_mgga_k_pgslb, d_mgga_k_pgslb); (f_mgga_x_2d_js17, d_mgga_x_2d_js17);
  (f_mgga_x_gdme, d_mgga_x_gdme); (f_mgga_x_gvt4, d_mgga_x_gvt4); (f_mgga_x_lta, d_mgga_x_lta);
  (f_mgga_x_m06l, d_mgga_x_m06l); (f_mgga_x_m08, d_mgga_x_m08); (f_mgga_x_mn12, d_mgga_x_mn12);
  (f_mgga_x_mvs, d_mgga_x_mvs); (f_mgga_x_tau_hcth, d_mgga_x_tau_hcth);
  (f_mgga_x_th, d_mgga_x_th); (f_mgga_xc_b98, d_mgga_xc_b98); (f_mgga_xc_lp90, d_mgga_xc_lp90);
  (f_mgga_xc_zlp, d_mgga_xc_zlp)].
Lemma smooth_unpol_calm : Forall (fun p => calm_unpol (snd p) (fst p)) smooth_unpol_functionals.
Proof.
  change smooth_unpol_functionals with (map srcd (picked defu_flags defu_list1)). apply Forall_srcd. apply Forall_forall. intros p H.
  pose proof (proj2 defu_runs) as E. rewrite forallb_forall in E. exact (smooth_unpol_ok (snd p) (fst p) (E p H)).
Qed.
Lemma smooth_unpol_ready : Forall (fun p => ready (snd p) (fst p)) smooth_unpol_functionals.
Proof.
  apply (Forall_pick _ _ smooth_unpol_functionals (fun p => p) [
  2; 3; 5; 6; 8; 10; 11; 16; 19; 20; 21; 22; 24; 26; 33; 34; 35; 36; 42; 45; 46; 47; 48; 49; 52;
  53; 55; 59; 62; 64; 66; 68; 69; 72; 78; 80; 81; 82; 83; 84; 85; 88; 89; 90; 91; 93; 95; 97; 98;
  99; 102; 103; 104; 105; 106; 114; 115; 118; 119; 120; 121; 122; 124; 125; 126; 127; 128; 129;
  131; 132; 133; 134; 135; 136; 137; 138; 139; 140; 141; 142; 143; 145; 146; 148; 149; 150; 151;
  152; 153; 154; 155; 156; 157; 158; 159; 164; 165; 166; 167; 168; 169; 170; 171; 172; 178; 179;
  180; 181; 184; 185; 186]%nat ready_functionals_holds). reflexivity.
Qed.
Definition sloped_unpol_list : list (compiled * domain) := [
  (a_gga_c_acgga, d_gga_c_acgga); (a_gga_c_acggap, d_gga_c_acggap); (a_gga_c_ccdf, d_gga_c_ccdf);
  (a_gga_c_lm, d_gga_c_lm); (a_gga_c_p86vwn, d_gga_c_p86vwn); (a_gga_c_revtca, d_gga_c_revtca);
  (a_gga_c_sg4, d_gga_c_sg4); (a_gga_c_tca, d_gga_c_tca); (a_gga_c_wi, d_gga_c_wi);
  (a_gga_c_wl, d_gga_c_wl); (a_gga_c_zpbeint, d_gga_c_zpbeint);
  (a_gga_c_zvpbeint, d_gga_c_zvpbeint); (a_gga_k_lc94, d_gga_k_lc94);
  (a_gga_k_lgap, d_gga_k_lgap); (a_gga_k_lgap_ge, d_gga_k_lgap_ge); (a_gga_k_llp, d_gga_k_llp);
  (a_gga_k_ol1, d_gga_k_ol1); (a_gga_k_ol2, d_gga_k_ol2); (a_gga_k_thakkar, d_gga_k_thakkar);
  (a_gga_x_2d_b88, d_gga_x_2d_b88); (a_gga_x_airy, d_gga_x_airy); (a_gga_x_ak13, d_gga_x_ak13);
  (a_gga_x_b88, d_gga_x_b88); (a_gga_x_bayesian, d_gga_x_bayesian);
  (a_gga_x_bpccac, d_gga_x_bpccac); (a_gga_x_cap, d_gga_x_cap); (a_gga_x_dk87, d_gga_x_dk87);
  (a_gga_x_g96, d_gga_x_g96); (a_gga_x_hcth_a, d_gga_x_hcth_a); (a_gga_x_lag, d_gga_x_lag);
  (a_gga_x_ncap, d_gga_x_ncap); (a_gga_x_ol2, d_gga_x_ol2); (a_gga_x_pbetrans, d_gga_x_pbetrans);
  (a_gga_x_pw91, d_gga_x_pw91); (a_gga_x_q2d, d_gga_x_q2d); (a_gga_xc_th1, d_gga_xc_th1);
  (a_gga_xc_th2, d_gga_xc_th2); (a_gga_xc_th3, d_gga_xc_th3)].
Definition sloped_unpol_functionals : list (source * domain) := [
  (f_gga_c_acgga, d_gga_c_acgga); (f_gga_c_acggap, d_gga_c_acggap); (f_gga_c_ccdf, d_gga_c_ccdf);
  (f_gga_c_lm, d_gga_c_lm); (f_gga_c_p86vwn, d_gga_c_p86vwn); (f_gga_c_revtca, d_gga_c_revtca);
  (f_gga_c_sg4, d_gga_c_sg4); (f_gga_c_tca, d_gga_c_tca); (f_gga_c_wi, d_gga_c_wi);
  (f_gga_c_wl, d_gga_c_wl); (f_gga_c_zpbeint, d_gga_c_zpbeint);
  (f_gga_c_zvpbeint, d_gga_c_zvpbeint); (f_gga_k_lc94, d_gga_k_lc94);
  (f_gga_k_lgap, d_gga_k_lgap); (f_gga_k_lgap_ge, d_gga_k_lgap_ge); (f_gga_k_llp, d_gga_k_llp);
  (f_gga_k_ol1, d_gga_k_ol1); (f_gga_k_ol2, d_gga_k_ol2); (f_gga_k_thakkar, d_gga_k_thakkar);
  (f_gga_x_2d_b88, d_gga_x_2d_b88); (f_gga_x_airy, d_gga_x_airy); (f_gga_x_ak13, d_gga_x_ak13);
  (f_gga_x_b88, d_gga_x_b88); (f_gga_x_bayesian, d_gga_x_bayesian);
  (f_gga_x_bpccac, d_gga_x_bpccac); (f_gga_x_cap, d_gga_x_cap); (f_gga_x_dk87, d_gga_x_dk87);
  (f_gga_x_g96, d_gga_x_g96); (f_gga_x_hcth_a, d_gga_x_hcth_a); (f_gga_x_lag, d_gga_x_lag);
  (f_gga_x_ncap, d_gga_x_ncap); (f_gga_x_ol2, d_gga_x_ol2); (f_gga_x_pbetrans, d_gga_x_pbetrans);
  (f_gga_x_pw91, d_gga_x_pw91); (f_gga_x_q2d, d_gga_x_q2d); (f_gga_xc_th1, d_gga_xc_th1);
  (f_gga_xc_th2, d_gga_xc_th2); (f_gga_xc_th3, d_gga_xc_th3)].
Lemma sloped_unpol_run : forallb (fun p => smooth_unpol (sloped (snd p)) (fst p)) sloped_unpol_list = true.
Proof. vm_cast_no_check (eq_refl true). Qed.
Lemma sloped_unpol_calm : Forall (fun p => calm_unpol (sloped (snd p)) (fst p)) sloped_unpol_functionals.
Proof.
  change sloped_unpol_functionals with (map srcd sloped_unpol_list). apply (Forall_srcd (fun d f => calm_unpol (sloped d) f)).
  apply Forall_forall. intros p H. pose proof sloped_unpol_run as E. rewrite forallb_forall in E. exact (smooth_unpol_ok (sloped (snd p)) (fst p) (E p H)).
Qed.
Lemma sloped_unpol_ready : Forall (fun p => ready (snd p) (fst p)) sloped_unpol_functionals.
Proof.
  apply (Forall_pick _ _ sloped_unpol_functionals (fun p => p) [
  0; 1; 4; 9; 18; 23; 25; 27; 29; 30; 31; 32; 37; 38; 39; 41; 43; 44; 50; 54; 56; 57; 60; 61; 63;
  65; 67; 70; 71; 79; 86; 87; 92; 94; 96; 109; 110; 111]%nat ready_functionals_holds). reflexivity.
Qed.
Lemma smooth_unpol_holds : Forall (fun p => differentiable_unpol (snd p) (fst p)) smooth_unpol_functionals.
Proof.
  apply Forall_forall. intros p H. destruct (proj1 (Forall_forall _ _) smooth_unpol_ready p H) as [U _].
  exact (unpol_library (snd p) (fst p) U (proj1 (Forall_forall _ _) smooth_unpol_calm p H)).
Qed.
Lemma sloped_unpol_holds : Forall (fun p => differentiable_unpol (snd p) (fst p)) (map with_slope sloped_unpol_functionals).
Proof.
  apply Forall_slope. apply Forall_forall. intros p H. destruct (proj1 (Forall_forall _ _) sloped_unpol_ready p H) as [U _].
  exact (unpol_library (sloped (snd p)) (fst p) (usable_sloped _ _ U) (proj1 (Forall_forall _ _) sloped_unpol_calm p H)).
Qed.

(** ** polarized *)
Definition smooth_pol_functionals : list (source * domain) := [
  (f_gga_c_am05, d_gga_c_am05); (f_gga_c_bmk, d_gga_c_bmk); (f_gga_c_cs1, d_gga_c_cs1);
  (f_gga_c_hcth_a, d_gga_c_hcth_a); (f_gga_c_lyp, d_gga_c_lyp); (f_gga_c_lypr, d_gga_c_lypr);
  (f_gga_c_optc, d_gga_c_optc); (f_gga_c_pbe, d_gga_c_pbe); (f_gga_c_pbeloc, d_gga_c_pbeloc);
  (f_gga_c_pw91, d_gga_c_pw91); (f_gga_c_regtpss, d_gga_c_regtpss);
  (f_gga_c_scan_e0, d_gga_c_scan_e0); (f_gga_c_sogga11, d_gga_c_sogga11);
  (f_lda_c_1d_csc, d_lda_c_1d_csc); (f_lda_c_1d_loos, d_lda_c_1d_loos);
  (f_lda_c_2d_prm, d_lda_c_2d_prm); (f_lda_c_chachiyo, d_lda_c_chachiyo);
  (f_lda_c_chachiyo_mod, d_lda_c_chachiyo_mod); (f_lda_c_gombas, d_lda_c_gombas);
  (f_lda_c_hl, d_lda_c_hl); (f_lda_c_lp96, d_lda_c_lp96); (f_lda_c_pmgb06, d_lda_c_pmgb06);
  (f_lda_c_pw, d_lda_c_pw); (f_lda_c_rc04, d_lda_c_rc04); (f_lda_c_rpa, d_lda_c_rpa);
  (f_lda_c_vwn, d_lda_c_vwn); (f_lda_c_vwn_1, d_lda_c_vwn_1); (f_lda_c_vwn_2, d_lda_c_vwn_2);
  (f_lda_c_vwn_4, d_lda_c_vwn_4); (f_lda_c_vwn_rpa, d_lda_c_vwn_rpa);
  (f_lda_c_wigner, d_lda_c_wigner); (f_lda_k_gds08_worker, d_lda_k_gds08_worker);
  (f_lda_k_tf, d_lda_k_tf); (f_lda_k_zlp, d_lda_k_zlp); (f_lda_x, d_lda_x);
  (f_lda_x_2d, d_lda_x_2d); (f_lda_x_rel, d_lda_x_rel); (f_lda_x_sloc, d_lda_x_sloc);
  (f_lda_xc_1d_ehwlrg, d_lda_xc_1d_ehwlrg); (f_lda_xc_teter93, d_lda_xc_teter93);
  (f_lda_xc_tih, d_lda_xc_tih); (f_lda_xc_zlp, d_lda_xc_zlp); (f_mgga_c_b88, d_mgga_c_b88);
  (f_mgga_c_bc95, d_mgga_c_bc95); (f_mgga_c_cc, d_mgga_c_cc); (f_mgga_c_cs, d_mgga_c_cs);
  (f_mgga_c_m05, d_mgga_c_m05); (f_mgga_c_m08, d_mgga_c_m08); (f_mgga_c_pkzb, d_mgga_c_pkzb);
  (f_mgga_xc_b98, d_mgga_xc_b98); (f_mgga_xc_lp90, d_mgga_xc_lp90); (f_mgga_xc_zlp, d_mgga_xc_zlp)].
Lemma smooth_pol_calm : Forall (fun p => calm_pol (snd p) (fst p)) smooth_pol_functionals.
Proof.
  change smooth_pol_functionals with (map srcd (picked defp_flags defp_list1)). apply Forall_srcd. apply Forall_forall. intros p H.
  pose proof (proj2 defp_runs) as E. rewrite forallb_forall in E. exact (smooth_pol_ok (snd p) (fst p) (E p H)).
Qed.
Lemma smooth_pol_ready : Forall (fun p => ready (snd p) (fst p)) smooth_pol_functionals.
Proof.
  apply (Forall_pick _ _ smooth_pol_functionals (fun p => p) [
  2; 3; 6; 8; 10; 11; 16; 19; 20; 21; 22; 24; 26; 118; 119; 120; 121; 122; 124; 125; 126; 128;
  129; 131; 132; 133; 134; 135; 136; 137; 138; 139; 140; 141; 142; 143; 145; 146; 148; 149; 150;
  151; 152; 153; 154; 155; 157; 158; 159; 184; 185; 186]%nat ready_functionals_holds). reflexivity.
Qed.
Definition sloped_pol_list : list (compiled * domain) := [
  (a_gga_c_acgga, d_gga_c_acgga); (a_gga_c_acggap, d_gga_c_acggap); (a_gga_c_ccdf, d_gga_c_ccdf);
  (a_gga_c_lm, d_gga_c_lm); (a_gga_c_p86vwn, d_gga_c_p86vwn); (a_gga_c_sg4, d_gga_c_sg4);
  (a_gga_c_tca, d_gga_c_tca); (a_gga_c_wi, d_gga_c_wi); (a_gga_c_zpbeint, d_gga_c_zpbeint);
  (a_gga_xc_th1, d_gga_xc_th1); (a_gga_xc_th2, d_gga_xc_th2); (a_gga_xc_th3, d_gga_xc_th3)].
Definition sloped_pol_functionals : list (source * domain) := [
  (f_gga_c_acgga, d_gga_c_acgga); (f_gga_c_acggap, d_gga_c_acggap); (f_gga_c_ccdf, d_gga_c_ccdf);
  (f_gga_c_lm, d_gga_c_lm); (f_gga_c_p86vwn, d_gga_c_p86vwn); (f_gga_c_sg4, d_gga_c_sg4);
  (f_gga_c_tca, d_gga_c_tca); (f_gga_c_wi, d_gga_c_wi); (f_gga_c_zpbeint, d_gga_c_zpbeint);
  (f_gga_xc_th1, d_gga_xc_th1); (f_gga_xc_th2, d_gga_xc_th2); (f_gga_xc_th3, d_gga_xc_th3)].
Lemma sloped_pol_run : forallb (fun p => smooth_pol (sloped (snd p)) (fst p)) sloped_pol_list = true.
Proof. vm_cast_no_check (eq_refl true). Qed.
Lemma sloped_pol_calm : Forall (fun p => calm_pol (sloped (snd p)) (fst p)) sloped_pol_functionals.
Proof.
  change sloped_pol_functionals with (map srcd sloped_pol_list). apply (Forall_srcd (fun d f => calm_pol (sloped d) f)).
  apply Forall_forall. intros p H. pose proof sloped_pol_run as E. rewrite forallb_forall in E. exact (smooth_pol_ok (sloped (snd p)) (fst p) (E p H)).
Qed.
Lemma sloped_pol_ready : Forall (fun p => ready (snd p) (fst p)) sloped_pol_functionals.
Proof.
  apply (Forall_pick _ _ sloped_pol_functionals (fun p => p) [
  0; 1; 4; 9; 18; 25; 27; 29; 31; 109; 110; 111]%nat ready_functionals_holds). reflexivity.
Qed.
Lemma smooth_pol_holds : Forall (fun p => differentiable_pol (snd p) (fst p)) smooth_pol_functionals.
Proof.
  apply Forall_forall. intros p H. destruct (proj1 (Forall_forall _ _) smooth_pol_ready p H) as [U _].
  exact (pol_library (snd p) (fst p) U (proj1 (Forall_forall _ _) smooth_pol_calm p H)).
Qed.
Lemma sloped_pol_holds : Forall (fun p => differentiable_pol (snd p) (fst p)) (map with_slope sloped_pol_functionals).
Proof.
  apply Forall_slope. apply Forall_forall. intros p H. destruct (proj1 (Forall_forall _ _) sloped_pol_ready p H) as [U _].
  exact (pol_library (sloped (snd p)) (fst p) (usable_sloped _ _ U) (proj1 (Forall_forall _ _) sloped_pol_calm p H)).
Qed.

(** ** Polarized, from the unpolarized formula *)
Definition smooth_above_functionals : list (source * domain) := [
  (f_gga_k_apbe, d_gga_k_apbe); (f_gga_k_dk, d_gga_k_dk); (f_gga_k_mpbe, d_gga_k_mpbe);
  (f_gga_k_pearson, d_gga_k_pearson); (f_gga_k_pg, d_gga_k_pg); (f_gga_k_pw86, d_gga_k_pw86);
  (f_gga_k_rational_p, d_gga_k_rational_p); (f_gga_k_tflw, d_gga_k_tflw);
  (f_gga_x_2d_b86, d_gga_x_2d_b86); (f_gga_x_2d_b86_mgc, d_gga_x_2d_b86_mgc);
  (f_gga_x_2d_pbe, d_gga_x_2d_pbe); (f_gga_x_b86, d_gga_x_b86);
  (f_gga_x_beefvdw, d_gga_x_beefvdw); (f_gga_x_c09x, d_gga_x_c09x);
  (f_gga_x_chachiyo, d_gga_x_chachiyo); (f_gga_x_ev93, d_gga_x_ev93);
  (f_gga_x_ft97, d_gga_x_ft97); (f_gga_x_herman, d_gga_x_herman); (f_gga_x_kt, d_gga_x_kt);
  (f_gga_x_lspbe, d_gga_x_lspbe); (f_gga_x_lsrpbe, d_gga_x_lsrpbe); (f_gga_x_mpbe, d_gga_x_mpbe);
  (f_gga_x_n12, d_gga_x_n12); (f_gga_x_optx, d_gga_x_optx); (f_gga_x_pbe, d_gga_x_pbe);
  (f_gga_x_pbea, d_gga_x_pbea); (f_gga_x_pbepow, d_gga_x_pbepow); (f_gga_x_pw86, d_gga_x_pw86);
  (f_gga_x_q1d, d_gga_x_q1d); (f_gga_x_rpbe, d_gga_x_rpbe); (f_gga_x_s12, d_gga_x_s12);
  (f_gga_x_sogga11, d_gga_x_sogga11); (f_gga_x_ssb_sw, d_gga_x_ssb_sw);
  (f_gga_x_vmt, d_gga_x_vmt); (f_gga_x_vmt84, d_gga_x_vmt84); (f_gga_x_wc, d_gga_x_wc);
  (f_hyb_mgga_x_dldf, d_hyb_mgga_x_dldf); (f_hyb_mgga_x_m05, d_hyb_mgga_x_m05);
  (f_lda_k_gds08_worker, d_lda_k_gds08_worker); (f_lda_k_tf, d_lda_k_tf); (f_lda_x, d_lda_x);
  (f_lda_x_2d, d_lda_x_2d); (f_mgga_k_gea2, d_mgga_k_gea2); (f_mgga_k_gea4, d_mgga_k_gea4);
  (f_mgga_k_pgslb, d_mgga_k_pgslb); (f_mgga_x_gdme, d_mgga_x_gdme);
  (f_mgga_x_gvt4, d_mgga_x_gvt4); (f_mgga_x_lta, d_mgga_x_lta); (f_mgga_x_m06l, d_mgga_x_m06l);
  (f_mgga_x_m08, d_mgga_x_m08); (f_mgga_x_mn12, d_mgga_x_mn12); (f_mgga_x_mvs, d_mgga_x_mvs);
  (f_mgga_x_tau_hcth, d_mgga_x_tau_hcth); (f_mgga_x_th, d_mgga_x_th)].
Lemma smooth_above_spin : Forall (fun p => spin_scales_library (snd p) (fst p)) smooth_above_functionals.
Proof.
  apply (Forall_pick _ _ smooth_above_functionals (fun p => p) [
  0; 1; 7; 10; 11; 12; 13; 14; 17; 18; 20; 24; 27; 28; 30; 32; 33; 36; 41; 43; 44; 45; 46; 49;
  50; 51; 52; 54; 56; 58; 59; 62; 63; 64; 65; 66; 69; 70; 72; 73; 74; 75; 78; 79; 80; 81; 82; 83;
  84; 85; 91; 92; 93; 94]%nat spin_exact_functionals_library). reflexivity.
Qed.
Lemma smooth_above_unpol : Forall (fun p => differentiable_unpol (snd p) (fst p)) smooth_above_functionals.
Proof.
  apply (Forall_pick _ _ smooth_above_functionals (fun p => p) [
  15; 16; 18; 19; 20; 21; 22; 23; 24; 25; 26; 27; 28; 29; 30; 31; 32; 33; 34; 36; 37; 39; 40; 41;
  42; 43; 44; 45; 46; 48; 49; 50; 51; 52; 53; 54; 55; 56; 76; 77; 79; 80; 95; 96; 97; 99; 100;
  101; 102; 103; 104; 105; 106; 107]%nat smooth_unpol_holds). reflexivity.
Qed.
Lemma smooth_above_holds : Forall (fun p => differentiable_above (snd p) (fst p)) smooth_above_functionals.
Proof.
  apply Forall_forall. intros p H.
  exact (exchange_library _ _ (proj1 (Forall_forall _ _) smooth_above_spin p H) (proj1 (Forall_forall _ _) smooth_above_unpol p H)).
Qed.
Definition sloped_above_functionals : list (source * domain) := [
  (f_gga_k_lc94, d_gga_k_lc94); (f_gga_k_lgap, d_gga_k_lgap); (f_gga_k_lgap_ge, d_gga_k_lgap_ge);
  (f_gga_k_llp, d_gga_k_llp); (f_gga_k_ol1, d_gga_k_ol1); (f_gga_k_ol2, d_gga_k_ol2);
  (f_gga_k_thakkar, d_gga_k_thakkar); (f_gga_x_2d_b88, d_gga_x_2d_b88);
  (f_gga_x_airy, d_gga_x_airy); (f_gga_x_ak13, d_gga_x_ak13); (f_gga_x_b88, d_gga_x_b88);
  (f_gga_x_bayesian, d_gga_x_bayesian); (f_gga_x_cap, d_gga_x_cap); (f_gga_x_dk87, d_gga_x_dk87);
  (f_gga_x_g96, d_gga_x_g96); (f_gga_x_hcth_a, d_gga_x_hcth_a); (f_gga_x_lag, d_gga_x_lag);
  (f_gga_x_ncap, d_gga_x_ncap); (f_gga_x_ol2, d_gga_x_ol2); (f_gga_x_pbetrans, d_gga_x_pbetrans);
  (f_gga_x_pw91, d_gga_x_pw91); (f_gga_x_q2d, d_gga_x_q2d)].
Lemma sloped_above_spin : Forall (fun p => spin_scales_library (snd p) (fst p)) sloped_above_functionals.
Proof.
  apply (Forall_pick _ _ sloped_above_functionals (fun p => p) [
  2; 3; 4; 6; 8; 9; 15; 19; 21; 22; 25; 26; 29; 31; 34; 35; 42; 47; 48; 53; 55; 57]%nat spin_exact_functionals_library). reflexivity.
Qed.
Lemma sloped_above_unpol : Forall (fun p => differentiable_unpol (snd p) (fst p)) (map with_slope sloped_above_functionals).
Proof.
  apply (Forall_pick _ _ (map with_slope sloped_above_functionals) (fun p => p) [
  12; 13; 14; 15; 16; 17; 18; 19; 20; 21; 22; 23; 25; 26; 27; 28; 29; 30; 31; 32; 33; 34]%nat sloped_unpol_holds). reflexivity.
Qed.
Lemma sloped_above_holds : Forall (fun p => differentiable_above (snd p) (fst p)) (map with_slope sloped_above_functionals).
Proof.
  apply Forall_forall. intros p H. apply in_map_iff in H as K. destruct K as (q & <- & Hq).
  exact (exchange_library _ _ (spin_sloped _ _ (proj1 (Forall_forall _ _) sloped_above_spin q Hq)) (proj1 (Forall_forall _ _) sloped_above_unpol _ H)).
Qed.
