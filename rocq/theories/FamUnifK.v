(** Uniform-gas limit of kinetic functionals: run of the equality checker. Written by tools/gen_families.py. *)
From Coq Require Import List QArith NArith.
From Verif Require Import Bytes Syntax Parser PostProcess Src Ast Semantics Norm Problems Families.
Import ListNotations.

Definition uniform_k_list1 : list compiled := [
  a_gga_k_apbe; a_gga_k_apbeint; a_gga_k_lgap; a_gga_k_lgap_ge; a_gga_k_llp; a_gga_k_mpbe;
  a_gga_k_ol1; a_gga_k_pearson; a_gga_k_pg; a_gga_k_pw86; a_gga_k_rational_p; a_gga_k_thakkar;
  a_gga_k_vt84f; a_mgga_k_csk; a_mgga_k_csk_loc; a_mgga_k_gea2; a_mgga_k_gea4; a_mgga_k_lk;
  a_mgga_k_pgslb].
Lemma uniform_k_run1 : forallb (chk_uniform thomas_fermi [] 0) uniform_k_list1 = true.
Proof. vm_cast_no_check (eq_refl true). Qed.
Lemma uniform_k_all1 : Forall (fun c => uniform_limit tf_energy [] (c_src c)) uniform_k_list1.
Proof.
  apply Forall_forall. intros c H. pose proof uniform_k_run1 as E. rewrite forallb_forall in E.
  exact (uniform_k_sound [] 0 c (E c H)).
Qed.
