(** C43: correlation energies are not positive. *)
From Coq Require Import Reals List QArith Qreals Bool Lra.
From Verif Require Import Bytes Syntax Parser Src Ast Semantics Impl ImplThm Records Samples Interval Absint AbsintThm Defined Domains Inputs Library FamSamples Refute Corr RunCorr.
Import ListNotations.
Open Scope R_scope.

(** Both spin modes. *)
Theorem C43_nonpositive_partial : Forall (fun p => returns_nonpositive (snd p) (fst p)) corr_functionals.
Proof. exact corr_holds. Qed.
Print Assumptions C43_nonpositive_partial.

(** The unpolarised mode. *)
Theorem C43_unpolarized_partial : Forall (fun p => returns_nonpositive_unpol (snd p) (fst p)) corr_unpol_functionals.
Proof. exact corr_unpol_holds. Qed.
Print Assumptions C43_unpolarized_partial.

(** Wilson's functional, which has no parameters, on a density with gradients in both channels. *)
Definition w94 (ns : nat) : func_p := lib_record f_gga_c_w94 "gga" ns [].
Lemma w94_record ns : record_for (lib_impl f_gga_c_w94) f_gga_c_w94 d_gga_c_w94 ns (w94 ns).
Proof.
  split; [split; [discriminate|split; [discriminate|reflexivity]]|]. split; [reflexivity|]. split; [reflexivity|].
  split; [exists (/ 1000); split; [reflexivity|lra]|]. split; [exists (/ 100); reflexivity|]. intros x s [].
Qed.
Example C43_example : exists v,
  epsilon_xc sample_ops (lib_impl f_gga_c_w94) (w94 2) 3 field_pol None = Ok (Some v) /\ v <= 0.
Proof.
  assert (M : In (f_gga_c_w94, d_gga_c_w94) corr_functionals) by in_list.
  apply (proj1 (Forall_forall _ _) C43_nonpositive_partial _ M sample_ops); [exact sample_ops_ok|]. right. split; [apply w94_record|].
  apply gga_point_pol; try reflexivity; cbn [f_val field_pol]; rewrite ?lin_pol0, ?lin_pol1; lra.
Qed.
(** Wigner's with a = -0.44 and b = 7.8 at the density 5. *)
Definition wigner (ns : nat) : func_p := lib_record f_lda_c_wigner "lda" ns [("a"%b, - (44 / 100)); ("b"%b, 78 / 10)].
Lemma wigner_record ns : record_for (lib_impl f_lda_c_wigner) f_lda_c_wigner r_lda_c_wigner ns (wigner ns).
Proof.
  split; [split; [discriminate|split; [discriminate|reflexivity]]|]. split; [reflexivity|]. split; [reflexivity|].
  split; [exists (/ 1000); split; [reflexivity|lra]|]. split; [exists (/ 100); reflexivity|].
  intros x s [E|[E|[]]]; injection E as <- <-; (eexists; split; [reflexivity|]); cbn [sat_sort below]; unfold Q2R; cbn; lra.
Qed.
Example C43_example_unpol : exists v,
  epsilon_xc sample_ops (lib_impl f_lda_c_wigner) (wigner 1) 3 field_unpol None = Ok (Some v) /\ v <= 0.
Proof.
  assert (M : In (f_lda_c_wigner, r_lda_c_wigner) corr_unpol_functionals) by in_list.
  apply (proj1 (Forall_forall _ _) C43_unpolarized_partial _ M sample_ops); [exact sample_ops_ok|apply wigner_record|].
  split; [split; [reflexivity|split; [discriminate|discriminate]]|]. split; [exact lin_unpol_pos|]. split; discriminate.
Qed.

(** False of ten: some call returns a positive energy. All but Lee, Yang and Parr's read no
    parameter apart from the two thresholds. *)
Theorem C43_nonpositive_refuted : Forall (fun p => returns_positive (snd p) (fst p)) positive_corr_functionals.
Proof. exact positive_corr_holds. Qed.
Print Assumptions C43_nonpositive_refuted.
Example C43_refuted_parameters : map (fun p => (src_name (fst p), length (snd p))) positive_corr_functionals =
  [("gga_c_cs1", 2); ("gga_c_gapc", 2); ("gga_c_hcth_a", 2); ("gga_c_lyp", 6); ("gga_c_wl", 2); ("lda_c_1d_loos", 2);
   ("lda_c_gk72", 2); ("lda_c_rpa", 2); ("mgga_c_cs", 2); ("mgga_c_revscan", 2)]%b%nat.
Proof. vm_compute. reflexivity. Qed.
