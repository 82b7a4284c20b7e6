(** Closed-shell agreement: run of the equality checker. Written by tools/gen_families.py. *)
From Coq Require Import List QArith NArith.
From Verif Require Import Bytes Syntax Parser PostProcess Src Ast Semantics Norm Problems Families.
Import ListNotations.

Definition closed_shell_list2 : list compiled := [
  a_gga_c_acggap; a_gga_c_ccdf; a_gga_c_gapc; a_gga_c_lm; a_gga_c_op_b88; a_gga_c_op_xalpha;
  a_gga_c_pbe; a_gga_c_pw91; a_gga_c_revtca; a_gga_c_sogga11; a_gga_c_wi; a_gga_c_zvpbeint;
  a_gga_k_apbeint; a_gga_k_lgap; a_gga_k_llp; a_gga_k_ol1; a_gga_k_pg; a_gga_k_tflw;
  a_gga_x_2d_b86; a_gga_x_2d_pbe; a_gga_x_am05; a_gga_x_bayesian; a_gga_x_chachiyo;
  a_gga_x_fd_lb94; a_gga_x_gg99; a_gga_x_hjs; a_gga_x_ityh_optx; a_gga_x_lag; a_gga_x_lsrpbe;
  a_gga_x_ncap; a_gga_x_pbe; a_gga_x_pbetrans; a_gga_x_q1d; a_gga_x_s12; a_gga_x_sogga11;
  a_gga_x_vmt84; a_gga_xc_b97; a_hyb_gga_xc_wb97; a_hyb_mgga_x_js18; a_hyb_mgga_xc_wb97mv;
  a_lda_c_2d_amgb; a_lda_c_chachiyo_mod; a_lda_c_hl; a_lda_c_pw; a_lda_c_rpa; a_lda_c_vwn_2;
  a_lda_c_vwn_rpa; a_lda_k_gds08_worker; a_lda_x; a_lda_x_2d; a_lda_x_sloc; a_lda_xc_ksdt;
  a_lda_xc_zlp; a_mgga_c_bc95; a_mgga_c_cs; a_mgga_c_m05; a_mgga_c_pkzb; a_mgga_c_revtpss;
  a_mgga_c_rregtm; a_mgga_c_tpss; a_mgga_k_csk_loc; a_mgga_k_lk; a_mgga_k_rda; a_mgga_x_br89;
  a_mgga_x_ft98; a_mgga_x_gx; a_mgga_x_m06l; a_mgga_x_m11_l; a_mgga_x_mbrxc_bg; a_mgga_x_mn12;
  a_mgga_x_mvs; a_mgga_x_pkzb; a_mgga_x_regtm; a_mgga_x_rlda; a_mgga_x_rtpss; a_mgga_x_tau_hcth;
  a_mgga_x_tm; a_mgga_xc_b97mv; a_mgga_xc_lp90].
Lemma closed_shell_run2 : forallb (fun c => check (pb_closed_shell 0 c)) closed_shell_list2 = true.
Proof. vm_cast_no_check (eq_refl true). Qed.
Lemma closed_shell_all2 : Forall (fun c => closed_shell_agrees (c_src c)) closed_shell_list2.
Proof.
  apply Forall_forall. intros c H. pose proof closed_shell_run2 as E. rewrite forallb_forall in E.
  exact (closed_shell_sound 0 c (E c H)).
Qed.
