(** Spin scaling: run of the equality checker. Written by tools/gen_families.py. *)
From Coq Require Import List QArith NArith.
From Verif Require Import Bytes Syntax Parser PostProcess Src Ast Semantics Norm Problems Families.
Import ListNotations.

Definition spin_list2 : list compiled := [
  a_gga_k_apbeint; a_gga_k_lgap; a_gga_k_llp; a_gga_k_ol1; a_gga_k_pg; a_gga_k_tflw;
  a_gga_x_2d_b86; a_gga_x_2d_pbe; a_gga_x_am05; a_gga_x_bayesian; a_gga_x_chachiyo;
  a_gga_x_fd_lb94; a_gga_x_gg99; a_gga_x_hjs; a_gga_x_ityh_optx; a_gga_x_lag; a_gga_x_mpbe;
  a_gga_x_ol2; a_gga_x_pbea; a_gga_x_pbetrans; a_gga_x_q1d; a_gga_x_s12; a_gga_x_sogga11;
  a_gga_x_vmt84; a_hyb_gga_x_cam_s12; a_hyb_mgga_x_m05; a_lda_x; a_lda_x_erf; a_mgga_k_csk_loc;
  a_mgga_k_lk; a_mgga_k_rda; a_mgga_x_br89_explicit; a_mgga_x_gdme; a_mgga_x_jk; a_mgga_x_m08;
  a_mgga_x_mbeefvdw; a_mgga_x_mbrxh_bg; a_mgga_x_ms; a_mgga_x_mvsb; a_mgga_x_r2scan;
  a_mgga_x_regtpss; a_mgga_x_rppscan; a_mgga_x_sa_tpss; a_mgga_x_th; a_mgga_x_vt84].
Lemma spin_run2 : forallb (chk_spin_scaling 0) spin_list2 = true.
Proof. vm_cast_no_check (eq_refl true). Qed.
Lemma spin_all2 : Forall (fun c => spin_scales (c_src c)) spin_list2.
Proof.
  apply Forall_forall. intros c H. pose proof spin_run2 as E. rewrite forallb_forall in E.
  exact (spin_scaling_sound 0 c (E c H)).
Qed.
