(** C01-C05 for the callable without conditions on the parameters: whenever the calls return
    numbers, these are related as stated.  The lists are in Fam.v. *)
From Coq Require Import Reals List Bool QArith Arith Lra Lia.
From Verif Require Import Bytes Syntax Parser PostProcess Src Ast Semantics Free Vec Impl ImplThm ImplThm2 ImplThm4 Records
  Samples Families Interval Absint AbsintThm Defined Domains Exact Inputs Library Callable Fam FamExact FamInputs FamSamples FamCallable PropFamilies.
Import ListNotations.
Open Scope R_scope.

(** ** C01 *)
Theorem C01_closed_shell_returned_partial : Forall closed_shell_callable closed_shell_functionals.
Proof. exact closed_callables. Qed.
Print Assumptions C01_closed_shell_returned_partial.

(** PBE correlation returns numbers at the sample density of Samples.v and at its two halves. *)
Example C01_returned_example : exists v,
  epsilon_xc sample_ops (lib_impl f_gga_c_pbe) (pbec 1) 3 field_unpol None = Ok (Some v) /\
  epsilon_xc sample_ops (lib_impl f_gga_c_pbe) (pbec 2) 3 half_pol None = Ok (Some v).
Proof.
  destruct (pbec_returns_unpol sample_ops sample_ops_ok) as (v & Hv).
  destruct (pbec_pol sample_ops half_pol sample_ops_ok) as (w & Hw);
    [reflexivity|unfold unscreened; cbn; lra|split; cbn; lra|exact (pbec_half sample_ops sample_ops_ok)|].
  assert (M : In f_gga_c_pbe closed_shell_functionals) by in_list.
  assert (E : v = w); [|subst w; exists v; split; assumption].
  refine (proj1 (Forall_forall _ _) C01_closed_shell_returned_partial _ M sample_ops _ (pbec 1) (pbec 2) 3%nat field_unpol half_pol None None v w
    (pbec_record 1) (pbec_record 2) pbec_same _ _ lin_unpol_pos _ _ Hv Hw).
  - apply (wf_unpol 1); auto.
  - apply (wf_unpol 2); auto.
  - intros s _. cbn [half_pol field_unpol f_val f_jac f_hess]. unfold lin_unpol, origin. repeat split; intros; lra.
  - discriminate.
Qed.

(** ** C02 *)
Theorem C02_spin_flip_returned_partial : Forall spin_symmetric_callable swap_functionals.
Proof. exact swap_callables. Qed.
Print Assumptions C02_spin_flip_returned_partial.

Example C02_returned_example : exists v,
  epsilon_xc sample_ops (lib_impl f_gga_c_pbe) (pbec 2) 3 field_pol None = Ok (Some v) /\
  epsilon_xc sample_ops (lib_impl f_gga_c_pbe) (pbec 2) 3 swapped_pol None = Ok (Some v).
Proof.
  assert (P : positive_pol field_pol) by (split; cbn [f_val field_pol]; rewrite ?lin_pol0, ?lin_pol1; lra).
  destruct (pbec_pol sample_ops field_pol sample_ops_ok) as (v & Hv);
    [reflexivity|apply sample_unscreened; reflexivity|exact P|exact (pbec_lin sample_ops sample_ops_ok)|].
  destruct (pbec_pol sample_ops swapped_pol sample_ops_ok) as (w & Hw);
    [reflexivity|unfold unscreened; cbn; unfold origin; lra|split; cbn; unfold origin; lra|exact (pbec_flipped sample_ops sample_ops_ok)|].
  assert (M : In f_gga_c_pbe swap_functionals) by in_list.
  assert (E : v = w); [|subst w; exists v; split; assumption].
  refine (proj1 (Forall_forall _ _) C02_spin_flip_returned_partial _ M sample_ops _ (pbec 2) 3%nat field_pol swapped_pol None None v w
    (pbec_record 2) _ _ P _ _ Hv Hw).
  - apply (wf_unpol 2); auto.
  - apply (wf_unpol 2); auto.
  - intros s t [[-> ->]|[-> ->]]; repeat split.
  - discriminate.
Qed.

(** ** C03 *)
Theorem C03_exchange_scaling_returned_partial : Forall (scales_callable 1) scale1_functionals.
Proof. exact scale1_callables. Qed.
Print Assumptions C03_exchange_scaling_returned_partial.
Theorem C03_kinetic_scaling_returned_partial : Forall (scales_callable 2) scale2_functionals.
Proof. exact scale2_callables. Qed.
Print Assumptions C03_kinetic_scaling_returned_partial.

(** ** C04 *)
Theorem C04_spin_scaling_returned_partial : Forall spin_scales_callable spin_functionals.
Proof. exact spin_callables. Qed.
Print Assumptions C04_spin_scaling_returned_partial.

(** ** C05 *)
Theorem C05_uniform_exchange_returned_partial : Forall (uniform_callable slater_energy []) uniform_x_functionals.
Proof. exact uniform_x_callables. Qed.
Print Assumptions C05_uniform_exchange_returned_partial.
Theorem C05_uniform_kinetic_returned_partial : Forall (uniform_callable tf_energy []) uniform_k_functionals.
Proof. exact uniform_k_callables. Qed.
Print Assumptions C05_uniform_kinetic_returned_partial.

(** ** Examples for C03-C05: the numbers whose existence PropFamilies.v shows *)
Example C03_returned_example :
  exists v w, epsilon_xc sample_ops (lib_impl f_gga_x_pbe) (pbe 2) 3 field_pol None = Ok (Some v) /\
  epsilon_xc sample_ops (lib_impl f_gga_x_pbe) (pbe 2) 3 scaled_pol None = Ok (Some w) /\ w = 2 ^ 1 * v.
Proof.
  destruct C03_example as (v & Hv & Hw). exists v, (2 ^ 1 * v). split; [exact Hv|]. split; [exact Hw|].
  assert (M : In f_gga_x_pbe scale1_functionals) by in_list.
  refine (proj1 (Forall_forall _ _) C03_exchange_scaling_returned_partial _ M sample_ops _ (pbe 2) 3%nat field_pol scaled_pol None None 2 _ _
    (pbe_any 2) _ _ sample_positive _ sample_scaled _ _ _ Hv Hw);
    [apply (wf_unpol 2); auto|apply (wf_unpol 2); auto|lra|discriminate|apply sample_unscreened; reflexivity|apply scaled_unscreened; reflexivity].
Qed.
Example C03_kinetic_returned_example :
  exists v w, epsilon_xc sample_ops (lib_impl f_gga_k_apbe) (kapbe 2) 3 field_pol None = Ok (Some v) /\
  epsilon_xc sample_ops (lib_impl f_gga_k_apbe) (kapbe 2) 3 scaled_pol None = Ok (Some w) /\ w = 2 ^ 2 * v.
Proof.
  destruct C03_kinetic_example as (v & Hv & Hw). exists v, (2 ^ 2 * v). split; [exact Hv|]. split; [exact Hw|].
  assert (M : In f_gga_k_apbe scale2_functionals) by in_list.
  refine (proj1 (Forall_forall _ _) C03_kinetic_scaling_returned_partial _ M sample_ops _ (kapbe 2) 3%nat field_pol scaled_pol None None 2 _ _
    (kapbe_any 2) _ _ sample_positive _ sample_scaled _ _ _ Hv Hw);
    [apply (wf_unpol 2); auto|apply (wf_unpol 2); auto|lra|discriminate|apply sample_unscreened; reflexivity|apply scaled_unscreened; reflexivity].
Qed.
Example C04_returned_example : exists e u w,
  epsilon_xc sample_ops (lib_impl f_gga_x_pbe) (pbe 2) 3 field_pol None = Ok (Some e) /\
  epsilon_xc sample_ops (lib_impl f_gga_x_pbe) (pbe 1) 3 (doubled_unpol 0) None = Ok (Some u) /\
  epsilon_xc sample_ops (lib_impl f_gga_x_pbe) (pbe 1) 3 (doubled_unpol 1) None = Ok (Some w) /\
  (3 + 2) * e = (2 * 3 * u + 2 * 2 * w) / 2.
Proof.
  destruct C04_example as (e & u & w & He & Hu & Hw & _). exists e, u, w. repeat (split; [assumption|]).
  assert (M : In f_gga_x_pbe spin_functionals) by in_list.
  enough (E : (lin_pol origin [0%nat] + lin_pol origin [1%nat]) * e = (2 * lin_pol origin [0%nat] * u + 2 * lin_pol origin [1%nat] * w) / 2)
    by (rewrite lin_pol0, lin_pol1 in E; exact E).
  refine (proj1 (Forall_forall _ _) C04_spin_scaling_returned_partial _ M sample_ops _ (pbe 2) (pbe 1) 3%nat field_pol (doubled_unpol 0) (doubled_unpol 1) None None None e u w
    (pbe_any 2) (pbe_any 1) (pbe_same 2 1) _ _ _ sample_positive _ _ _ _ _ He Hu Hw);
    [apply (wf_unpol 2); auto|apply (wf_unpol 1); auto|apply (wf_unpol 1); auto|repeat split; intros i _; cbn; lra|repeat split; intros i _; cbn; lra
    |discriminate|apply sample_unscreened; reflexivity|apply sample_unclipped; [reflexivity|apply lin_pol0|apply lin_pol1]].
Qed.
Example C05_returned_example : exists v,
  epsilon_xc sample_ops (lib_impl f_gga_x_pbe) (pbe 2) 3 uniform_pol None = Ok (Some v) /\
  (lin_pol origin [0%nat] + lin_pol origin [1%nat]) * v = slater_energy (lin_pol origin [0%nat]) (lin_pol origin [1%nat]).
Proof.
  destruct C05_example as (v & Hv & _). exists v. split; [exact Hv|].
  assert (M : In f_gga_x_pbe uniform_x_functionals) by in_list.
  refine (proj1 (Forall_forall _ _) C05_uniform_exchange_returned_partial _ M sample_ops _ (pbe 2) 3%nat uniform_pol None v (pbe_any 2) _ _ sample_positive _ _ _ _ Hv);
    [intros x q []|apply (wf_unpol 2); auto|intros s _; split; intros; reflexivity|discriminate|exact (sample_unscreened (pbe 2) eq_refl)
    |apply sample_unclipped; [reflexivity|apply lin_pol0|apply lin_pol1]].
Qed.
