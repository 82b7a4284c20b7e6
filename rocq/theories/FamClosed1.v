(** Closed-shell agreement: run of the equality checker. Written by tools/gen_families.py. *)
From Coq Require Import List QArith NArith.
From Verif Require Import Bytes Syntax Parser PostProcess Src Ast Semantics Norm Problems Families.
Import ListNotations.

Definition closed_shell_list1 : list compiled := [
  a_gga_c_acgga; a_gga_c_bmk; a_gga_c_cs1; a_gga_c_hcth_a; a_gga_c_lypr; a_gga_c_op_pbe;
  a_gga_c_p86vwn; a_gga_c_pbeloc; a_gga_c_regtpss; a_gga_c_sg4; a_gga_c_w94; a_gga_c_zpbeint;
  a_gga_k_apbe; a_gga_k_lc94; a_gga_k_lkt; a_gga_k_mpbe; a_gga_k_pearson; a_gga_k_rational_p;
  a_gga_k_vt84f; a_gga_x_2d_b88; a_gga_x_ak13; a_gga_x_b88; a_gga_x_cap; a_gga_x_ev93;
  a_gga_x_g96; a_gga_x_herman; a_gga_x_ityh; a_gga_x_kt; a_gga_x_lspbe; a_gga_x_n12;
  a_gga_x_optx; a_gga_x_pbeint; a_gga_x_pw91; a_gga_x_rpbe; a_gga_x_sfat_pbe; a_gga_x_vmt;
  a_gga_x_wpbeh; a_hyb_gga_xc_case21; a_hyb_mgga_x_dldf; a_hyb_mgga_x_pjs18; a_lda_c_1d_loos;
  a_lda_c_chachiyo; a_lda_c_gombas; a_lda_c_pmgb06; a_lda_c_rc04; a_lda_c_vwn_1; a_lda_c_vwn_4;
  a_lda_c_wigner; a_lda_k_zlp; a_lda_x_1d_soft; a_lda_x_rel; a_lda_xc_1d_ehwlrg; a_lda_xc_tih;
  a_mgga_c_b94; a_mgga_c_ccalda; a_mgga_c_ltapw; a_mgga_c_m08; a_mgga_c_revscan;
  a_mgga_c_rppscan; a_mgga_c_scan; a_mgga_k_csk; a_mgga_k_gea4; a_mgga_k_pgslb;
  a_mgga_x_2d_prp10; a_mgga_x_edmgga; a_mgga_x_gvt4; a_mgga_x_lta; a_mgga_x_m11; a_mgga_x_mbr;
  a_mgga_x_mggac; a_mgga_x_msb; a_mgga_x_pbe_gx; a_mgga_x_r4scan; a_mgga_x_revtm; a_mgga_x_rscan;
  a_mgga_x_scan; a_mgga_x_th; a_mgga_x_vt84; a_mgga_xc_cc06].
Lemma closed_shell_run1 : forallb (fun c => check (pb_closed_shell 0 c)) closed_shell_list1 = true.
Proof. vm_cast_no_check (eq_refl true). Qed.
Lemma closed_shell_all1 : Forall (fun c => closed_shell_agrees (c_src c)) closed_shell_list1.
Proof.
  apply Forall_forall. intros c H. pose proof closed_shell_run1 as E. rewrite forallb_forall in E.
  exact (closed_shell_sound 0 c (E c H)).
Qed.
