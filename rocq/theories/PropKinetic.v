(** C37: kinetic energies are not negative. *)
From Coq Require Import Reals List QArith Bool Lra.
From Verif Require Import Bytes Syntax Parser Src Ast Semantics Impl Records Samples Interval Absint AbsintThm Defined Domains Inputs Library FamSamples Refute RunRefute Kinetic FamKinetic RunKinetic.
Import ListNotations.
Open Scope R_scope.

Theorem C37_nonnegative_partial : Forall (fun p => returns_nonnegative (snd p) (fst p)) kinetic_functionals.
Proof. exact kinetic_holds. Qed.
Print Assumptions C37_nonnegative_partial.

(** APBE with kappa 4/5 and mu 1/5 on a density with gradients in both channels. *)
Example C37_example : exists v,
  epsilon_xc sample_ops (lib_impl f_gga_k_apbe) (kapbe 2) 3 field_pol None = Ok (Some v) /\ 0 <= v.
Proof.
  assert (M : In (f_gga_k_apbe, k_gga_k_apbe) kinetic_functionals) by in_list.
  apply (proj1 (Forall_forall _ _) C37_nonnegative_partial _ M sample_ops); [exact sample_ops_ok|]. right. split; [apply kapbe_record|].
  apply gga_point_pol; try reflexivity; cbn [f_val field_pol]; rewrite ?lin_pol0, ?lin_pol1; lra.
Qed.

(** The second-order gradient expansion reads no parameter apart from the two thresholds. *)
Theorem C37_nonnegative_refuted : negative_somewhere f_mgga_k_gea2.
Proof. exact gea2_negative. Qed.
Print Assumptions C37_nonnegative_refuted.
Example C37_refuted_parameters : map fst (half_params a_mgga_k_gea2) = ["p.zeta_threshold"; "p.dens_threshold"]%b.
Proof. vm_compute. reflexivity. Qed.
