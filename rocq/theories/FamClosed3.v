(** Closed-shell agreement: run of the equality checker. Written by tools/gen_families.py. *)
From Coq Require Import List QArith NArith.
From Verif Require Import Bytes Syntax Parser PostProcess Src Ast Semantics Norm Problems Families.
Import ListNotations.

Definition closed_shell_list3 : list compiled := [
  a_gga_c_am05; a_gga_c_chachiyo; a_gga_c_gaploc; a_gga_c_lyp; a_gga_c_op_g96; a_gga_c_p86;
  a_gga_c_pbe_vwn; a_gga_c_q2d; a_gga_c_scan_e0; a_gga_c_tca; a_gga_c_wl; a_gga_c_zvpbeloc;
  a_gga_k_dk; a_gga_k_lgap_ge; a_gga_k_meyer; a_gga_k_ol2; a_gga_k_pw86; a_gga_k_thakkar;
  a_gga_x_2d_b86_mgc; a_gga_x_airy; a_gga_x_b86; a_gga_x_c09x; a_gga_x_dk87; a_gga_x_ft97;
  a_gga_x_hcth_a; a_gga_x_hjs_b88_v2; a_gga_x_ityh_pbe; a_gga_x_lb; a_gga_x_mpbe; a_gga_x_ol2;
  a_gga_x_pbea; a_gga_x_pw86; a_gga_x_q2d; a_gga_x_sfat; a_gga_x_ssb_sw; a_gga_x_wc;
  a_hyb_gga_x_cam_s12; a_hyb_lda_xc_bn05; a_hyb_mgga_x_m05; a_lda_c_1d_csc; a_lda_c_2d_prm;
  a_lda_c_gk72; a_lda_c_lp96; a_lda_c_pz; a_lda_c_vwn; a_lda_c_vwn_3; a_lda_c_w20; a_lda_k_tf;
  a_lda_x_1d_exponential; a_lda_x_erf; a_lda_x_yukawa; a_lda_xc_teter93; a_mgga_c_b88;
  a_mgga_c_cc; a_mgga_c_kcis; a_mgga_c_m06l; a_mgga_c_r2scan; a_mgga_c_rmggac; a_mgga_c_rscan;
  a_mgga_c_vsxc; a_mgga_k_gea2; a_mgga_k_pc07; a_mgga_x_2d_prhg07; a_mgga_x_br89_explicit;
  a_mgga_x_gdme; a_mgga_x_jk; a_mgga_x_m08; a_mgga_x_mbeefvdw; a_mgga_x_mbrxh_bg; a_mgga_x_ms;
  a_mgga_x_mvsb; a_mgga_x_r2scan; a_mgga_x_regtpss; a_mgga_x_rppscan; a_mgga_x_sa_tpss;
  a_mgga_x_tb09; a_mgga_x_tpss; a_mgga_xc_b98; a_mgga_xc_zlp].
Lemma closed_shell_run3 : forallb (fun c => check (pb_closed_shell 0 c)) closed_shell_list3 = true.
Proof. vm_cast_no_check (eq_refl true). Qed.
Lemma closed_shell_all3 : Forall (fun c => closed_shell_agrees (c_src c)) closed_shell_list3.
Proof.
  apply Forall_forall. intros c H. pose proof closed_shell_run3 as E. rewrite forallb_forall in E.
  exact (closed_shell_sound 0 c (E c H)).
Qed.
