(** C01-C04 decided for the whole library: the list of exceptions is complete in both directions.
    A functional not in it has the property for all inputs and parameters; a functional in it fails
    at an admissible point, for every reading of the special functions (Refute.v). Of the functionals
    named last in a statement it is only shown that they raise a NameError on every call (C34). *)
From Coq Require Import List QArith.
From Verif Require Import Bytes Src Ast Semantics Families Refute RunRefute RunPrecise Inputs Decided.
Import ListNotations.

Theorem C36_closed_shell_exact :
  Forall (fun f => closed_shell_agrees f <-> ~ In f closed_shell_exceptions) all_sources.
Proof. exact closed_shell_exact. Qed.
Print Assumptions C36_closed_shell_exact.
Theorem C01_closed_shell_refuted :
  Forall (fun f => closed_shell_differs f /\ ~ closed_shell_agrees f) closed_shell_exceptions.
Proof. exact closed_shell_refuted. Qed.
Print Assumptions C01_closed_shell_refuted.

Theorem C36_spin_flip_exact : decided any spin_symmetric [f_gga_x_lb; f_lda_xc_ksdt; f_mgga_x_2d_prp10] [f_mgga_x_tb09].
Proof. exact swap_decided. Qed.
Print Assumptions C36_spin_flip_exact.

(** Exchange functionals are those with a part "x" in their name, kinetic ones those with a part "k". *)
Theorem C36_exchange_scaling_exact :
  decided exchange (scales_with 1) scaling_exceptions [f_lda_x_1d_exponential; f_lda_x_1d_soft].
Proof. exact scaling_x_decided. Qed.
Print Assumptions C36_exchange_scaling_exact.
Theorem C36_kinetic_scaling_exact : decided kinetic (scales_with 2) [f_lda_k_gds08_worker; f_lda_k_zlp] [].
Proof. exact scaling_k_decided. Qed.
Print Assumptions C36_kinetic_scaling_exact.

Theorem C36_spin_scaling_exact : decided separable spin_scales spin_exceptions [f_mgga_x_tb09].
Proof. exact spin_decided. Qed.
Print Assumptions C36_spin_scaling_exact.

(** How many functionals each statement is about, and how many exceptions there are. *)
Example decided_counts :
  (length all_sources, length (filter exchange all_sources), length (filter kinetic all_sources)) = (261, 124, 31)%nat /\
  (length closed_shell_exceptions, length scaling_exceptions, length spin_exceptions) = (17, 30, 13)%nat.
Proof. split; vm_compute; reflexivity. Qed.
Example exchange_names : map exchange [f_lda_x; f_hyb_mgga_x_m05; f_lda_xc_ksdt; f_gga_c_pbe; f_gga_k_exp4] = [true; true; false; false; false] /\
  map kinetic [f_lda_x; f_gga_k_exp4; f_lda_k_zlp; f_mgga_c_kcisk] = [false; true; true; false].
Proof. split; vm_compute; reflexivity. Qed.
