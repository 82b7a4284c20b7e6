(** C01-C06, C33 and C37 at the level of the returned function: each of these functionals has a
    record with the listed parameters, and densities and orbitals in three dimensions, at which the
    calls return numbers that break the rule, for every reading of the special functions. With the
    positive results this decides C01-C04 for the callables of the whole library. *)
From Coq Require Import Reals List QArith.
From Verif Require Import Bytes Src Ast Semantics Families Library Callable Refute RunRefute RunPrecise Kinetic RunKinetic Decided Corr Calls RunCalls.
Import ListNotations.
Open Scope R_scope.

(** The callables of the library. An exception named first in a statement fails at a call; the
    functionals named last raise a NameError on every call (C34). *)
Theorem C36_closed_shell_calls_exact : decided any closed_shell_callable closed_shell_exceptions [].
Proof. exact shell_calls_decided. Qed.
Print Assumptions C36_closed_shell_calls_exact.
Theorem C36_spin_flip_calls_exact : decided any spin_symmetric_callable [f_gga_x_lb; f_lda_xc_ksdt; f_mgga_x_2d_prp10] [f_mgga_x_tb09].
Proof. exact swap_calls_decided. Qed.
Print Assumptions C36_spin_flip_calls_exact.
Theorem C36_exchange_scaling_calls_exact : decided exchange (scales_callable 1) scaling_exceptions [f_lda_x_1d_exponential; f_lda_x_1d_soft].
Proof. exact scaling_calls_decided. Qed.
Print Assumptions C36_exchange_scaling_calls_exact.
Theorem C36_kinetic_scaling_calls_exact : decided kinetic (scales_callable 2) [f_lda_k_gds08_worker; f_lda_k_zlp] [].
Proof. exact scaling_k_calls_decided. Qed.
Print Assumptions C36_kinetic_scaling_calls_exact.
Theorem C36_spin_scaling_calls_exact : decided separable spin_scales_callable spin_exceptions [f_mgga_x_tb09].
Proof. exact spin_calls_decided. Qed.
Print Assumptions C36_spin_scaling_calls_exact.

(** The calls. *)
Theorem C01_calls_refuted : Forall (fun p => call_shell_differs (snd p) (fst p)) shell_calls.
Proof. exact shell_calls_differ. Qed.
Print Assumptions C01_calls_refuted.
Theorem C02_calls_refuted : Forall (fun p => call_asymmetric (snd p) (fst p)) swap_calls.
Proof. exact swap_calls_differ. Qed.
Print Assumptions C02_calls_refuted.
Theorem C03_calls_refuted : Forall (fun p => call_scales_otherwise 1 (snd p) (fst p)) scaling_calls /\
  Forall (fun p => call_scales_otherwise 2 (snd p) (fst p)) scaling_k_calls.
Proof. exact (conj scaling_calls_differ scaling_k_calls_differ). Qed.
Print Assumptions C03_calls_refuted.
Theorem C04_calls_refuted : Forall (fun p => call_spin_otherwise (snd p) (fst p)) spin_calls.
Proof. exact spin_calls_differ. Qed.
Print Assumptions C04_calls_refuted.
Theorem C05_calls_refuted : Forall (fun p => call_misses_limit slater_energy (snd p) (fst p)) limit_x_calls /\
  Forall (fun p => call_misses_limit tf_energy (snd p) (fst p)) limit_k_calls.
Proof. exact (conj limit_x_calls_differ limit_k_calls_differ). Qed.
Print Assumptions C05_calls_refuted.
(** In both spin modes, at positive densities, well above the threshold, without a gradient. *)
Theorem C06_calls_refuted : Forall (fun p => call_without_value (snd p) (fst p)) no_value_calls.
Proof. exact no_value_calls_fail. Qed.
Print Assumptions C06_calls_refuted.
Theorem C33_calls_refuted : call_with_sign (fun v => 0 < v) (half_params a_mgga_x_gvt4) f_mgga_x_gvt4.
Proof. exact gvt4_call. Qed.
Print Assumptions C33_calls_refuted.
Theorem C37_calls_refuted : call_with_sign (fun v => v < 0) (half_params a_mgga_k_gea2) f_mgga_k_gea2.
Proof. exact gea2_call. Qed.
Print Assumptions C37_calls_refuted.

(** The lists are those of the formulas; the parameters of two of the calls. *)
Example calls_counts : (length shell_calls, length swap_calls, length scaling_calls, length scaling_k_calls, length spin_calls) = (17, 3, 30, 2, 13)%nat /\
  (length limit_x_calls, length limit_k_calls, length no_value_calls) = (10, 2, 10)%nat.
Proof. split; vm_compute; reflexivity. Qed.
Example calls_parameters : nth 1 shell_calls (f_lda_x, []) =
  (f_gga_x_htbs, [("p.zeta_threshold", 1 # 100000000); ("p.dens_threshold", 1 # 100000000)]%b%Q).
Proof. vm_compute. reflexivity. Qed.
