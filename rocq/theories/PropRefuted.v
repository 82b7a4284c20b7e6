(** Shipped functionals for which a property of the formulas fails, each with a witness. The
    statements are in Refute.v and Undefined.v next to those of Families.v: at some admissible
    point, for every reading of the special functions, both sides have a value and the values
    differ. *)
From Coq Require Import List QArith.
From Verif Require Import Bytes Syntax Parser PostProcess Src Ast Semantics Families Refute Undefined RunRefute.
Import ListNotations.

(** The van Leeuwen-Baerends potential reads the first spin channel only. *)
Theorem C02_spin_flip_refuted : spin_asymmetric f_gga_x_lb /\ ~ spin_symmetric f_gga_x_lb.
Proof. exact lb_asymmetric. Qed.
Print Assumptions C02_spin_flip_refuted.

(** Functionals of two dimensions, with a range separation, or with dimensionful constants. *)
Theorem C03_exchange_scaling_refuted :
  Forall (fun f => scales_otherwise 1 f /\ ~ scales_with 1 f) other_scaling_functionals.
Proof. exact scaling_x_refuted. Qed.
Print Assumptions C03_exchange_scaling_refuted.
Theorem C03_kinetic_scaling_refuted :
  Forall (fun f => scales_otherwise 2 f /\ ~ scales_with 2 f) other_scaling_k_functionals.
Proof. exact scaling_k_refuted. Qed.
Print Assumptions C03_kinetic_scaling_refuted.

Theorem C04_spin_scaling_refuted : spin_scales_otherwise f_gga_x_lb /\ ~ spin_scales f_gga_x_lb.
Proof. exact lb_spin. Qed.
Print Assumptions C04_spin_scaling_refuted.

(** None of these reads a parameter apart from the two thresholds. *)
Theorem C05_uniform_exchange_refuted :
  Forall (fun f => misses_limit slater_energy f /\ ~ uniform_limit slater_energy [] f) other_limit_x_functionals.
Proof. exact limit_x_refuted. Qed.
Print Assumptions C05_uniform_exchange_refuted.
Theorem C05_uniform_kinetic_refuted :
  Forall (fun f => misses_limit tf_energy f /\ ~ uniform_limit tf_energy [] f) other_limit_k_functionals.
Proof. exact limit_k_refuted. Qed.
Print Assumptions C05_uniform_kinetic_refuted.
Example C05_refuted_parameters : Forall (fun c => map fst (half_params c) = ["p.zeta_threshold"; "p.dens_threshold"]%b)
  (other_limit_x ++ other_limit_k).
Proof. repeat (apply Forall_cons; [vm_compute; reflexivity|]). apply Forall_nil. Qed.

(** At a density with zero gradient these formulas divide by zero in both spin modes. *)
Theorem C06_zero_gradient_refuted :
  Forall (fun f => undefined_pol f /\ undefined_unpol f) no_value_functionals.
Proof. exact no_value_flat. Qed.
Print Assumptions C06_zero_gradient_refuted.

(** It reads no parameter apart from the two thresholds. *)
Theorem C33_nonpositive_refuted : positive_somewhere f_mgga_x_gvt4.
Proof. exact gvt4_positive. Qed.
Print Assumptions C33_nonpositive_refuted.
Example C33_refuted_parameters : map fst (half_params a_mgga_x_gvt4) = ["p.zeta_threshold"; "p.dens_threshold"]%b.
Proof. vm_compute. reflexivity. Qed.
