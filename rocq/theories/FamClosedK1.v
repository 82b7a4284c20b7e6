(** Closed-shell agreement: run of the equality checker. Written by tools/gen_families.py. *)
From Coq Require Import List QArith NArith.
From Verif Require Import Bytes Syntax Parser PostProcess Src Ast Semantics Norm Problems Families.
Import ListNotations.

Definition closed_shell_list4 : list compiled := [
  a_gga_x_beefvdw; a_gga_x_pbepow; a_mgga_x_mbeef; a_mgga_x_mcml; a_mgga_x_vcml].
Lemma closed_shell_run4 : forallb (fun c => check (pb_closed_shell 1 c)) closed_shell_list4 = true.
Proof. vm_cast_no_check (eq_refl true). Qed.
Lemma closed_shell_all4 : Forall (fun c => closed_shell_agrees (c_src c)) closed_shell_list4.
Proof.
  apply Forall_forall. intros c H. pose proof closed_shell_run4 as E. rewrite forallb_forall in E.
  exact (closed_shell_sound 1 c (E c H)).
Qed.
