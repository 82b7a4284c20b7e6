(** Spin-flip symmetry: run of the equality checker. Written by tools/gen_families.py. *)
From Coq Require Import List QArith NArith.
From Verif Require Import Bytes Syntax Parser PostProcess Src Ast Semantics Norm Problems Families.
Import ListNotations.

Definition swap_list4 : list compiled := [
  a_gga_x_beefvdw; a_mgga_x_mbeef; a_mgga_x_mcml; a_mgga_x_vcml].
Lemma swap_run4 : forallb (fun c => check (pb_swap 1 c)) swap_list4 = true.
Proof. vm_cast_no_check (eq_refl true). Qed.
Lemma swap_all4 : Forall (fun c => spin_symmetric (c_src c)) swap_list4.
Proof.
  apply Forall_forall. intros c H. pose proof swap_run4 as E. rewrite forallb_forall in E.
  exact (swap_sound 1 c (E c H)).
Qed.
