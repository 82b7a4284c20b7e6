(** Spin-flip symmetry: run of the equality checker. Written by tools/gen_families.py. *)
From Coq Require Import List QArith NArith.
From Verif Require Import Bytes Syntax Parser PostProcess Src Ast Semantics Norm Problems Families.
Import ListNotations.

Definition swap_list2 : list compiled := [
  a_gga_c_acggap; a_gga_c_ccdf; a_gga_c_ft97; a_gga_c_hcth_a; a_gga_c_lypr; a_gga_c_op_pbe;
  a_gga_c_optc; a_gga_c_pbe; a_gga_c_pw91; a_gga_c_revtca; a_gga_c_sogga11; a_gga_c_wi;
  a_gga_c_zvpbeint; a_gga_k_apbeint; a_gga_k_lc94; a_gga_k_lkt; a_gga_k_mpbe; a_gga_k_pearson;
  a_gga_k_rational_p; a_gga_k_vt84f; a_gga_x_2d_b88; a_gga_x_ak13; a_gga_x_b88; a_gga_x_c09x;
  a_gga_x_dk87; a_gga_x_ft97; a_gga_x_hcth_a; a_gga_x_hjs_b88_v2; a_gga_x_ityh_optx; a_gga_x_lag;
  a_gga_x_lsrpbe; a_gga_x_n12; a_gga_x_optx; a_gga_x_pbeint; a_gga_x_pw86; a_gga_x_q2d;
  a_gga_x_s12; a_gga_x_sg4; a_gga_x_vmt; a_gga_x_wpbeh; a_gga_xc_th2; a_hyb_gga_xc_case21;
  a_hyb_mgga_x_dldf; a_hyb_mgga_x_pjs18; a_lda_c_1d_loos; a_lda_c_chachiyo; a_lda_c_gombas;
  a_lda_c_ml1; a_lda_c_pw; a_lda_c_rpa; a_lda_c_vwn_2; a_lda_c_vwn_rpa; a_lda_k_gds08_worker;
  a_lda_x; a_lda_x_2d; a_lda_x_sloc; a_lda_xc_teter93; a_mgga_c_b88; a_mgga_c_cc; a_mgga_c_kcis;
  a_mgga_c_m05; a_mgga_c_pkzb; a_mgga_c_revtpss; a_mgga_c_rregtm; a_mgga_c_tpss; a_mgga_k_csk;
  a_mgga_k_gea4; a_mgga_k_pgslb; a_mgga_x_2d_prhg07; a_mgga_x_edmgga; a_mgga_x_gvt4;
  a_mgga_x_lta; a_mgga_x_m11; a_mgga_x_mbr; a_mgga_x_mggac; a_mgga_x_msb; a_mgga_x_pbe_gx;
  a_mgga_x_r4scan; a_mgga_x_revtm; a_mgga_x_rscan; a_mgga_x_scan; a_mgga_x_th; a_mgga_x_vt84;
  a_mgga_xc_cc06].
Lemma swap_run2 : forallb (fun c => check (pb_swap 0 c)) swap_list2 = true.
Proof. vm_cast_no_check (eq_refl true). Qed.
Lemma swap_all2 : Forall (fun c => spin_symmetric (c_src c)) swap_list2.
Proof.
  apply Forall_forall. intros c H. pose proof swap_run2 as E. rewrite forallb_forall in E.
  exact (swap_sound 0 c (E c H)).
Qed.
