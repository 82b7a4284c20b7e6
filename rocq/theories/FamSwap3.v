(** Spin-flip symmetry: run of the equality checker. Written by tools/gen_families.py. *)
From Coq Require Import List QArith NArith.
From Verif Require Import Bytes Syntax Parser PostProcess Src Ast Semantics Norm Problems Families.
Import ListNotations.

Definition swap_list3 : list compiled := [
  a_gga_c_am05; a_gga_c_chachiyo; a_gga_c_gapc; a_gga_c_lm; a_gga_c_op_b88; a_gga_c_op_pw91;
  a_gga_c_p86; a_gga_c_pbe_vwn; a_gga_c_q2d; a_gga_c_scan_e0; a_gga_c_tca; a_gga_c_wl;
  a_gga_c_zvpbeloc; a_gga_k_dk; a_gga_k_lgap; a_gga_k_llp; a_gga_k_ol1; a_gga_k_pg; a_gga_k_tflw;
  a_gga_x_2d_b86; a_gga_x_2d_pbe; a_gga_x_am05; a_gga_x_bayesian; a_gga_x_cap; a_gga_x_ev93;
  a_gga_x_g96; a_gga_x_herman; a_gga_x_htbs; a_gga_x_ityh_pbe; a_gga_x_lg93; a_gga_x_lv_rpw86;
  a_gga_x_ncap; a_gga_x_pbe; a_gga_x_pbepow; a_gga_x_pw91; a_gga_x_rge2; a_gga_x_sfat;
  a_gga_x_sogga11; a_gga_x_vmt84; a_gga_xc_b97; a_gga_xc_th3; a_hyb_gga_xc_wb97;
  a_hyb_mgga_x_js18; a_hyb_mgga_xc_wb97mv; a_lda_c_2d_amgb; a_lda_c_chachiyo_mod; a_lda_c_hl;
  a_lda_c_pk09; a_lda_c_pz; a_lda_c_vwn; a_lda_c_vwn_3; a_lda_c_w20; a_lda_k_tf;
  a_lda_x_1d_exponential; a_lda_x_erf; a_lda_x_yukawa; a_lda_xc_tih; a_mgga_c_b94;
  a_mgga_c_ccalda; a_mgga_c_kcisk; a_mgga_c_m06l; a_mgga_c_r2scan; a_mgga_c_rmggac;
  a_mgga_c_rscan; a_mgga_c_tpssloc; a_mgga_k_csk_loc; a_mgga_k_lk; a_mgga_k_rda; a_mgga_x_br89;
  a_mgga_x_ft98; a_mgga_x_gx; a_mgga_x_m06l; a_mgga_x_m11_l; a_mgga_x_mbrxc_bg; a_mgga_x_mn12;
  a_mgga_x_mvs; a_mgga_x_pkzb; a_mgga_x_regtm; a_mgga_x_rlda; a_mgga_x_rtpss; a_mgga_x_task;
  a_mgga_x_tm; a_mgga_xc_b97mv; a_mgga_xc_lp90].
Lemma swap_run3 : forallb (fun c => check (pb_swap 0 c)) swap_list3 = true.
Proof. vm_cast_no_check (eq_refl true). Qed.
Lemma swap_all3 : Forall (fun c => spin_symmetric (c_src c)) swap_list3.
Proof.
  apply Forall_forall. intros c H. pose proof swap_run3 as E. rewrite forallb_forall in E.
  exact (swap_sound 0 c (E c H)).
Qed.
