(** Spin scaling: run of the equality checker. Written by tools/gen_families.py. *)
From Coq Require Import List QArith NArith.
From Verif Require Import Bytes Syntax Parser PostProcess Src Ast Semantics Norm Problems Families.
Import ListNotations.

Definition spin_list4 : list compiled := [
  a_gga_x_beefvdw; a_lda_k_tf; a_lda_x_2d; a_mgga_x_mbeef; a_mgga_x_mcml; a_mgga_x_vcml].
Lemma spin_run4 : forallb (chk_spin_scaling 2) spin_list4 = true.
Proof. vm_cast_no_check (eq_refl true). Qed.
Lemma spin_all4 : Forall (fun c => spin_scales (c_src c)) spin_list4.
Proof.
  apply Forall_forall. intros c H. pose proof spin_run4 as E. rewrite forallb_forall in E.
  exact (spin_scaling_sound 2 c (E c H)).
Qed.
