(** Uniform-gas limit of exchange: run of the equality checker. Written by tools/gen_families.py. *)
From Coq Require Import List QArith NArith.
From Verif Require Import Bytes Syntax Parser PostProcess Src Ast Semantics Norm Problems Families.
Import ListNotations.

Definition uniform_x_list1 : list compiled := [
  a_gga_x_airy; a_gga_x_ak13; a_gga_x_am05; a_gga_x_b86; a_gga_x_b88; a_gga_x_bpccac;
  a_gga_x_c09x; a_gga_x_cap; a_gga_x_dk87; a_gga_x_ev93; a_gga_x_fd_lb94; a_gga_x_ft97;
  a_gga_x_g96; a_gga_x_herman; a_gga_x_htbs; a_gga_x_kt; a_gga_x_lg93; a_gga_x_lspbe;
  a_gga_x_lsrpbe; a_gga_x_lv_rpw86; a_gga_x_mpbe; a_gga_x_ncap; a_gga_x_pbe; a_gga_x_pbea;
  a_gga_x_pbeint; a_gga_x_pbetrans; a_gga_x_pw86; a_gga_x_q1d; a_gga_x_q2d; a_gga_x_rge2;
  a_gga_x_rpbe; a_gga_x_sg4; a_gga_x_vmt; a_gga_x_vmt84; a_gga_x_wc; a_mgga_x_ft98; a_mgga_x_jk;
  a_mgga_x_lta; a_mgga_x_ms; a_mgga_x_msb; a_mgga_x_mvs; a_mgga_x_pkzb; a_mgga_x_regtm;
  a_mgga_x_regtpss; a_mgga_x_revtm; a_mgga_x_rtpss; a_mgga_x_sa_tpss; a_mgga_x_th; a_mgga_x_tm;
  a_mgga_x_tpss; a_mgga_x_vt84].
Lemma uniform_x_run1 : forallb (chk_uniform slater [] 0) uniform_x_list1 = true.
Proof. vm_cast_no_check (eq_refl true). Qed.
Lemma uniform_x_all1 : Forall (fun c => uniform_limit slater_energy [] (c_src c)) uniform_x_list1.
Proof.
  apply Forall_forall. intros c H. pose proof uniform_x_run1 as E. rewrite forallb_forall in E.
  exact (uniform_x_sound [] 0 c (E c H)).
Qed.
