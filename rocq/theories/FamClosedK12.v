(** Closed-shell agreement: run of the equality checker. Written by tools/gen_families.py. *)
From Coq Require Import List QArith NArith.
From Verif Require Import Bytes Syntax Parser PostProcess Src Ast Semantics Norm Problems Families.
Import ListNotations.

Definition closed_shell_list5 : list compiled := [
  a_gga_xc_th1; a_gga_xc_th2].
Lemma closed_shell_run5 : forallb (fun c => check (pb_closed_shell 12 c)) closed_shell_list5 = true.
Proof. vm_cast_no_check (eq_refl true). Qed.
Lemma closed_shell_all5 : Forall (fun c => closed_shell_agrees (c_src c)) closed_shell_list5.
Proof.
  apply Forall_forall. intros c H. pose proof closed_shell_run5 as E. rewrite forallb_forall in E.
  exact (closed_shell_sound 12 c (E c H)).
Qed.
