(** Properties of the shipped formulas: C01-C06, C32-C34.  The lists are in Fam.v, FamExact.v
    and FamInputs.v; each theorem is followed by an example meeting its hypotheses. *)
From Coq Require Import Reals List Bool QArith Arith Lra Lia.
From Verif Require Import Bytes Syntax Parser PostProcess Src Ast Semantics Free Vec Impl ImplThm ImplThm2 ImplThm4 Records
  Samples Families Interval Absint AbsintThm Defined Domains Exact Inputs Library Fam FamLib FamExact FamInputs FamSamples.
Import ListNotations.
Open Scope R_scope.

(** ** C01: closed-shell agreement of the two spin modes *)

(** The callables of both spin modes return the same number at a closed-shell point. *)
Theorem C01_closed_shell_partial :
  Forall (fun p => closed_shell_library (snd p) (fst p)) closed_shell_exact_functionals.
Proof. exact closed_shell_exact_functionals_library. Qed.
Print Assumptions C01_closed_shell_partial.
(** For more functionals: the formulas agree wherever both have a value. *)
Theorem C01_closed_shell_formula_partial : Forall closed_shell_agrees closed_shell_functionals.
Proof. exact closed_shell_holds. Qed.
Print Assumptions C01_closed_shell_formula_partial.

Example C01_example : exists v,
  epsilon_xc sample_ops (lib_impl f_gga_x_pbe) (pbe 1) 3 field_unpol None = Ok (Some v) /\
  epsilon_xc sample_ops (lib_impl f_gga_x_pbe) (pbe 2) 3 half_pol None = Ok (Some v).
Proof.
  assert (M : In (f_gga_x_pbe, d_gga_x_pbe) closed_shell_exact_functionals) by in_list.
  apply (proj1 (Forall_forall _ _) C01_closed_shell_partial _ M sample_ops _ (pbe 1) (pbe 2)).
  - exact sample_ops_ok.
  - apply pbe_record.
  - apply pbe_record.
  - apply pbe_same.
  - apply gga_point_unpol; reflexivity.
  - apply (wf_unpol 2); auto.
  - intros s _. cbn [half_pol field_unpol f_val f_jac f_hess]. unfold lin_unpol, origin. repeat split; intros; lra.
  - discriminate.
Qed.

(** ** C02: spin-flip symmetry *)
Theorem C02_spin_flip_partial :
  Forall (fun p => spin_symmetric_library (snd p) (fst p)) swap_exact_functionals.
Proof. exact swap_exact_functionals_library. Qed.
Print Assumptions C02_spin_flip_partial.
Theorem C02_spin_flip_formula_partial : Forall spin_symmetric swap_functionals.
Proof. exact swap_holds. Qed.
Print Assumptions C02_spin_flip_formula_partial.

Example C02_example : exists v,
  epsilon_xc sample_ops (lib_impl f_gga_x_pbe) (pbe 2) 3 field_pol None = Ok (Some v) /\
  epsilon_xc sample_ops (lib_impl f_gga_x_pbe) (pbe 2) 3 swapped_pol None = Ok (Some v).
Proof.
  assert (M : In (f_gga_x_pbe, d_gga_x_pbe) swap_exact_functionals) by in_list.
  apply (proj1 (Forall_forall _ _) C02_spin_flip_partial _ M sample_ops _ (pbe 2)).
  - exact sample_ops_ok.
  - apply pbe_record.
  - apply gga_point_pol; try reflexivity; cbn [f_val field_pol]; rewrite ?lin_pol0, ?lin_pol1; lra.
  - apply (wf_unpol 2); auto.
  - intros s t [[-> ->]|[-> ->]]; repeat split.
  - discriminate.
Qed.

(** ** C03: coordinate scaling *)
Theorem C03_exchange_scaling_partial :
  Forall (fun p => scales_library 1 (snd p) (fst p)) scale1_exact_functionals.
Proof. exact scale1_exact_functionals_library. Qed.
Print Assumptions C03_exchange_scaling_partial.
Theorem C03_kinetic_scaling_partial :
  Forall (fun p => scales_library 2 (snd p) (fst p)) scale2_exact_functionals.
Proof. exact scale2_exact_functionals_library. Qed.
Print Assumptions C03_kinetic_scaling_partial.
Theorem C03_exchange_scaling_formula_partial : Forall (scales_with 1) scale1_functionals.
Proof. exact scale1_holds. Qed.
Print Assumptions C03_exchange_scaling_formula_partial.
Theorem C03_kinetic_scaling_formula_partial : Forall (scales_with 2) scale2_functionals.
Proof. exact scale2_holds. Qed.
Print Assumptions C03_kinetic_scaling_formula_partial.

Example C03_example : exists v,
  epsilon_xc sample_ops (lib_impl f_gga_x_pbe) (pbe 2) 3 field_pol None = Ok (Some v) /\
  epsilon_xc sample_ops (lib_impl f_gga_x_pbe) (pbe 2) 3 scaled_pol None = Ok (Some (2 ^ 1 * v)).
Proof.
  assert (M : In (f_gga_x_pbe, d_gga_x_pbe) scale1_exact_functionals) by in_list.
  apply (proj1 (Forall_forall _ _) C03_exchange_scaling_partial _ M sample_ops _ (pbe 2)).
  - exact sample_ops_ok.
  - apply pbe_record.
  - lra.
  - apply gga_point_pol; try reflexivity; cbn [f_val field_pol]; rewrite ?lin_pol0, ?lin_pol1; lra.
  - apply (wf_unpol 2); auto.
  - intros s _. repeat split. intros i _. cbn. lra.
  - discriminate.
  - apply sample_unscreened. reflexivity.
  - unfold unscreened. cbn [f_val scaled_pol]. rewrite lin_pol0, lin_pol1. cbn. lra.
Qed.
Example C03_kinetic_example : exists v,
  epsilon_xc sample_ops (lib_impl f_gga_k_apbe) (kapbe 2) 3 field_pol None = Ok (Some v) /\
  epsilon_xc sample_ops (lib_impl f_gga_k_apbe) (kapbe 2) 3 scaled_pol None = Ok (Some (2 ^ 2 * v)).
Proof.
  assert (M : In (f_gga_k_apbe, d_gga_k_apbe) scale2_exact_functionals) by in_list.
  apply (proj1 (Forall_forall _ _) C03_kinetic_scaling_partial _ M sample_ops _ (kapbe 2)).
  - exact sample_ops_ok.
  - apply kapbe_record.
  - lra.
  - apply gga_point_pol; try reflexivity; cbn [f_val field_pol]; rewrite ?lin_pol0, ?lin_pol1; lra.
  - apply (wf_unpol 2); auto.
  - intros s _. repeat split. intros i _. cbn. lra.
  - discriminate.
  - apply sample_unscreened. reflexivity.
  - unfold unscreened. cbn [f_val scaled_pol]. rewrite lin_pol0, lin_pol1. cbn. lra.
Qed.

(** ** C04: spin scaling *)
Theorem C04_spin_scaling_partial :
  Forall (fun p => spin_scales_library (snd p) (fst p)) spin_exact_functionals.
Proof. exact spin_exact_functionals_library. Qed.
Print Assumptions C04_spin_scaling_partial.
Theorem C04_spin_scaling_formula_partial : Forall spin_scales spin_functionals.
Proof. exact spin_holds. Qed.
Print Assumptions C04_spin_scaling_formula_partial.

Example C04_example : exists e u w,
  epsilon_xc sample_ops (lib_impl f_gga_x_pbe) (pbe 2) 3 field_pol None = Ok (Some e) /\
  epsilon_xc sample_ops (lib_impl f_gga_x_pbe) (pbe 1) 3 (doubled_unpol 0) None = Ok (Some u) /\
  epsilon_xc sample_ops (lib_impl f_gga_x_pbe) (pbe 1) 3 (doubled_unpol 1) None = Ok (Some w) /\
  5 * e = (6 * u + 4 * w) / 2.
Proof.
  assert (M : In (f_gga_x_pbe, d_gga_x_pbe) spin_exact_functionals) by in_list.
  destruct (proj1 (Forall_forall _ _) C04_spin_scaling_partial _ M sample_ops (lib_impl f_gga_x_pbe) (pbe 2) (pbe 1) 3%nat field_pol (doubled_unpol 0) (doubled_unpol 1) None None None)
    as (e & u & w & He & Hu & Hw & E).
  - exact sample_ops_ok.
  - apply pbe_record.
  - apply pbe_record.
  - apply pbe_same.
  - apply gga_point_pol; try reflexivity; cbn [f_val field_pol]; rewrite ?lin_pol0, ?lin_pol1; lra.
  - apply (wf_unpol 1); auto.
  - apply (wf_unpol 1); auto.
  - repeat split. intros i _. cbn. lra.
  - repeat split. intros i _. cbn. lra.
  - discriminate.
  - apply sample_unscreened. reflexivity.
  - apply sample_unclipped; [reflexivity|apply lin_pol0|apply lin_pol1].
  - exists e, u, w. repeat split; try assumption. cbn [f_val field_pol doubled_unpol] in E. rewrite lin_pol0, lin_pol1 in E. lra.
Qed.

(** ** C05: uniform-gas limit *)
Theorem C05_uniform_exchange_partial :
  Forall (fun p => uniform_library slater_energy (snd p) (fst p)) uniform_x_exact_functionals.
Proof. exact uniform_x_exact_functionals_library. Qed.
Print Assumptions C05_uniform_exchange_partial.
Theorem C05_uniform_kinetic_partial :
  Forall (fun p => uniform_library tf_energy (snd p) (fst p)) uniform_k_exact_functionals.
Proof. exact uniform_k_exact_functionals_library. Qed.
Print Assumptions C05_uniform_kinetic_partial.
Theorem C05_uniform_exchange_formula_partial : Forall (uniform_limit slater_energy []) uniform_x_functionals.
Proof. exact uniform_x_holds. Qed.
Print Assumptions C05_uniform_exchange_formula_partial.
Theorem C05_uniform_kinetic_formula_partial : Forall (uniform_limit tf_energy []) uniform_k_functionals.
Proof. exact uniform_k_holds. Qed.
Print Assumptions C05_uniform_kinetic_formula_partial.

(** In three dimensions the Slater energy of spin densities 3 and 2, whatever kappa and mu. *)
Example C05_example : exists v,
  epsilon_xc sample_ops (lib_impl f_gga_x_pbe) (pbe 2) 3 uniform_pol None = Ok (Some v) /\
  5 * v = - (3 / 2) * Rpower (3 / (4 * PI)) (1 / 3) * (Rpower 3 (4 / 3) + Rpower 2 (4 / 3)).
Proof.
  assert (M : In (f_gga_x_pbe, d_gga_x_pbe) uniform_x_exact_functionals) by in_list.
  destruct (proj1 (Forall_forall _ _) C05_uniform_exchange_partial _ M sample_ops (lib_impl f_gga_x_pbe) (pbe 2) 3%nat uniform_pol None) as (v & Hv & E).
  - exact sample_ops_ok.
  - apply pbe_record.
  - apply gga_point_pol; try reflexivity; cbn [f_val uniform_pol]; rewrite ?lin_pol0, ?lin_pol1; lra.
  - intros s _. split; intros; reflexivity.
  - discriminate.
  - exact (sample_unscreened (pbe 2) eq_refl).
  - apply sample_unclipped; [reflexivity|apply lin_pol0|apply lin_pol1].
  - exists v. split; [exact Hv|]. cbn [f_val uniform_pol] in E. rewrite lin_pol0, lin_pol1 in E. unfold slater_energy in E. lra.
Qed.

(** ** C06: a number comes out at every physical point *)
Theorem C06_returns_number_partial :
  Forall (fun p => returns_number (snd p) (fst p)) number_functionals.
Proof. exact number_functionals_holds. Qed.
Print Assumptions C06_returns_number_partial.
(** Formulas with a value in one of the spin modes. *)
Theorem C06_defined_pol_partial : Forall (fun p => defined_pol (snd p) (fst p)) defined_pol_functionals.
Proof. exact defined_pol_functionals_holds. Qed.
Print Assumptions C06_defined_pol_partial.
Theorem C06_defined_unpol_partial : Forall (fun p => defined_unpol (snd p) (fst p)) defined_unpol_functionals.
Proof. exact defined_unpol_functionals_holds. Qed.
Print Assumptions C06_defined_unpol_partial.

Example C06_example : exists v, epsilon_xc sample_ops (lib_impl f_gga_x_pbe) (pbe 2) 3 field_pol None = Ok (Some v).
Proof.
  assert (M : In (f_gga_x_pbe, d_gga_x_pbe) number_functionals) by in_list.
  apply (proj1 (Forall_forall _ _) C06_returns_number_partial _ M sample_ops); [exact sample_ops_ok|]. right. split; [apply pbe_record|].
  apply gga_point_pol; try reflexivity; cbn [f_val field_pol]; rewrite ?lin_pol0, ?lin_pol1; lra.
Qed.

(** ** C32: exchange does not depend on the mixed gradient product *)
Theorem C32_exchange_ignores_s1 : Forall ignores_s1 no_s1_functionals.
Proof. exact no_s1_holds. Qed.
Print Assumptions C32_exchange_ignores_s1.
(** The list is that of all the shipped functionals whose name marks them as exchange. *)
Theorem C32_all_exchange :
  map src_name no_s1_functionals = filter exchange_name (map src_name all_sources).
Proof. exact no_s1_complete. Qed.
Print Assumptions C32_all_exchange.

(** PBE exchange with gradients (1, 0) and (0, 2) in the channels, the mixed product replaced. *)
Example C32_example : let a := pol_at "gga" 3 field_pol None in
  pol f_gga_x_pbe sample_ops (attrs_of (pbe 2)) (with_s1 a (Some 7)) = pol f_gga_x_pbe sample_ops (attrs_of (pbe 2)) a /\
  p_s1 a = Some 0.
Proof.
  cbn zeta. assert (M : In f_gga_x_pbe no_s1_functionals) by in_list. split.
  - apply (proj1 (Forall_forall _ _) C32_exchange_ignores_s1 _ M).
  - cbn. f_equal. lra.
Qed.

(** ** C33: exchange energies are not positive *)
Theorem C33_nonpositive_partial :
  Forall (fun p => returns_nonpositive (snd p) (fst p)) nonpositive_functionals.
Proof. exact nonpositive_functionals_holds. Qed.
Print Assumptions C33_nonpositive_partial.

Example C33_example : exists v,
  epsilon_xc sample_ops (lib_impl f_gga_x_pbe) (pbe 2) 3 field_pol None = Ok (Some v) /\ v <= 0.
Proof.
  assert (M : In (f_gga_x_pbe, n_gga_x_pbe) nonpositive_functionals) by in_list.
  apply (proj1 (Forall_forall _ _) C33_nonpositive_partial _ M sample_ops); [exact sample_ops_ok|]. right. split; [apply pbe_nrecord|].
  apply gga_point_pol; try reflexivity; cbn [f_val field_pol]; rewrite ?lin_pol0, ?lin_pol1; lra.
Qed.

(** ** C34: which formulas can be called *)

(** Every shipped formula either never raises on well-formed inputs, or is one of the listed
    functionals, which raise NameError whatever the inputs. *)
Theorem C34_exceptions : Forall no_exception all_sources.
Proof. exact exceptions_holds. Qed.
Print Assumptions C34_exceptions.
(** Hence the claim that every shipped functional can be evaluated is false. *)
Theorem C34_every_formula_callable_refuted : ~ Forall raises_nothing all_sources.
Proof. exact callable_refuted. Qed.
Print Assumptions C34_every_formula_callable_refuted.

Example C34_example_raises : forall n rho mo, n = 1%nat \/ n = 2%nat ->
  well_formed (lib_record f_mgga_x_br89 "mgga" n []) rho mo ->
  epsilon_xc sample_ops (lib_impl f_mgga_x_br89) (lib_record f_mgga_x_br89 "mgga" n []) 3 rho mo = Err NameError.
Proof.
  intros n rho mo Hn W.
  assert (M : In f_mgga_x_br89 all_sources) by in_list.
  pose proof (proj1 (Forall_forall _ _) C34_exceptions _ M) as H. unfold no_exception in H.
  apply (H sample_ops); [split; [discriminate|split; [discriminate|reflexivity]]|right; right; reflexivity|exact Hn|exact W].
Qed.
Example C34_example_value : exists v, epsilon_xc sample_ops (lib_impl f_gga_x_pbe) (pbe 2) 3 field_pol None = Ok v.
Proof. destruct C06_example as (v & H). exists (Some v). exact H. Qed.
