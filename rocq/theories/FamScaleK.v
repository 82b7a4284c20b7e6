(** Coordinate scaling of kinetic functionals: run of the equality checker. Written by tools/gen_families.py. *)
From Coq Require Import List QArith NArith.
From Verif Require Import Bytes Syntax Parser PostProcess Src Ast Semantics Norm Problems Families.
Import ListNotations.

Definition scale2_list1 : list compiled := [
  a_gga_k_apbe; a_gga_k_apbeint; a_gga_k_dk; a_gga_k_exp4; a_gga_k_lc94; a_gga_k_lgap;
  a_gga_k_lgap_ge; a_gga_k_lkt; a_gga_k_llp; a_gga_k_meyer; a_gga_k_mpbe; a_gga_k_ol1;
  a_gga_k_ol2; a_gga_k_pearson; a_gga_k_pg; a_gga_k_pw86; a_gga_k_rational_p; a_gga_k_tflw;
  a_gga_k_thakkar; a_gga_k_vt84f; a_lda_k_tf; a_mgga_k_csk; a_mgga_k_csk_loc; a_mgga_k_gea2;
  a_mgga_k_gea4; a_mgga_k_lk; a_mgga_k_pc07; a_mgga_k_pgslb; a_mgga_k_rda].
Lemma scale2_run1 : forallb (fun c => check (pb_scale 2 0 c)) scale2_list1 = true.
Proof. vm_cast_no_check (eq_refl true). Qed.
Lemma scale2_all1 : Forall (fun c => scales_with 2 (c_src c)) scale2_list1.
Proof.
  apply Forall_forall. intros c H. pose proof scale2_run1 as E. rewrite forallb_forall in E.
  exact (scale_sound 2 0 c (E c H)).
Qed.
