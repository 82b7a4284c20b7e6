(** Spin scaling: run of the equality checker. Written by tools/gen_families.py. *)
From Coq Require Import List QArith NArith.
From Verif Require Import Bytes Syntax Parser PostProcess Src Ast Semantics Norm Problems Families.
Import ListNotations.

Definition spin_list3 : list compiled := [
  a_gga_k_dk; a_gga_k_lgap_ge; a_gga_k_meyer; a_gga_k_ol2; a_gga_k_pw86; a_gga_k_thakkar;
  a_gga_x_2d_b86_mgc; a_gga_x_airy; a_gga_x_b86; a_gga_x_c09x; a_gga_x_dk87; a_gga_x_ft97;
  a_gga_x_hcth_a; a_gga_x_hjs_b88_v2; a_gga_x_ityh_pbe; a_gga_x_lspbe; a_gga_x_n12; a_gga_x_optx;
  a_gga_x_pbeint; a_gga_x_pw86; a_gga_x_q2d; a_gga_x_sfat; a_gga_x_ssb_sw; a_gga_x_wc;
  a_hyb_mgga_x_dldf; a_hyb_mgga_x_pjs18; a_lda_x_1d_exponential; a_lda_x_yukawa; a_mgga_k_gea2;
  a_mgga_k_pc07; a_mgga_x_2d_prhg07; a_mgga_x_edmgga; a_mgga_x_gvt4; a_mgga_x_lta; a_mgga_x_m11;
  a_mgga_x_mbr; a_mgga_x_mggac; a_mgga_x_msb; a_mgga_x_pbe_gx; a_mgga_x_r4scan; a_mgga_x_revtm;
  a_mgga_x_rscan; a_mgga_x_scan; a_mgga_x_tm].
Lemma spin_run3 : forallb (chk_spin_scaling 0) spin_list3 = true.
Proof. vm_cast_no_check (eq_refl true). Qed.
Lemma spin_all3 : Forall (fun c => spin_scales (c_src c)) spin_list3.
Proof.
  apply Forall_forall. intros c H. pose proof spin_run3 as E. rewrite forallb_forall in E.
  exact (spin_scaling_sound 0 c (E c H)).
Qed.
