(** C38: exchange energies obey the Lieb-Oxford bound. *)
From Coq Require Import Reals List QArith Qreals Bool Lra.
From Verif Require Import Bytes Syntax Parser Src Ast Semantics Impl Records Samples Interval Absint AbsintThm Defined Domains Inputs Library FamSamples Refute Oxford RunOxford.
Import ListNotations.
Open Scope R_scope.

Theorem C38_lieb_oxford_partial : Forall (fun p => obeys_lieb_oxford (snd p) (fst p)) oxford_functionals.
Proof. exact oxford_holds. Qed.
Print Assumptions C38_lieb_oxford_partial.

(** PBE exchange with kappa 4/5 and mu 1/5: the closed-shell density 5, and the spin densities 3 and 2, with gradients. *)
Lemma pbe_bounded_record ns : record_for (lib_impl f_gga_x_pbe) f_gga_x_pbe o_gga_x_pbe ns (pbe ns).
Proof.
  destruct (pbe_record ns) as (H1 & H2 & H3 & H4 & H5 & _). split; [exact H1|]. split; [exact H2|]. split; [exact H3|]. split; [exact H4|]. split; [exact H5|].
  intros x s [E|[E|[]]]; injection E as <- <-; (eexists; split; [reflexivity|]); cbn [sat_sort kappa_in]; unfold Q2R; cbn; lra.
Qed.
Example C38_example_unpol : exists v,
  epsilon_xc sample_ops (lib_impl f_gga_x_pbe) (pbe 1) 3 field_unpol None = Ok (Some v) /\ - (1679 / 1000) * Rpower 5 (1 / 3) <= v.
Proof.
  assert (M : In (f_gga_x_pbe, o_gga_x_pbe) oxford_functionals) by in_list.
  assert (T : dens_threshold (fp_scal (pbe 1)) < 1 / 2) by (cbn; lra).
  pose proof (proj1 (proj1 (Forall_forall _ _) C38_lieb_oxford_partial _ M sample_ops (lib_impl f_gga_x_pbe) (pbe 1) 3%nat field_unpol None sample_ops_ok T)) as H.
  replace 5 with (f_val field_unpol []) by (cbn; unfold lin_unpol, origin; lra). apply H.
  split; [apply pbe_bounded_record|apply gga_point_unpol; reflexivity].
Qed.
Example C38_example_pol : exists v,
  epsilon_xc sample_ops (lib_impl f_gga_x_pbe) (pbe 2) 3 field_pol None = Ok (Some v) /\ - (1679 / 1000) * Rpower (3 + 2) (1 / 3) <= v.
Proof.
  assert (M : In (f_gga_x_pbe, o_gga_x_pbe) oxford_functionals) by in_list.
  assert (T : dens_threshold (fp_scal (pbe 2)) < 1 / 2) by (cbn; lra).
  pose proof (proj2 (proj1 (Forall_forall _ _) C38_lieb_oxford_partial _ M sample_ops (lib_impl f_gga_x_pbe) (pbe 2) 3%nat field_pol None sample_ops_ok T)) as H.
  replace (3 + 2) with (f_val field_pol [0%nat] + f_val field_pol [1%nat]) by (cbn [f_val field_pol]; rewrite lin_pol0, lin_pol1; reflexivity). apply H.
  split; [apply pbe_bounded_record|]. split.
  - apply gga_point_pol; try reflexivity; cbn [f_val field_pol]; rewrite ?lin_pol0, ?lin_pol1; lra.
  - apply sample_unclipped; [reflexivity|apply lin_pol0|apply lin_pol1].
Qed.

(** False of B88, G96, PW86 and six others. *)
Theorem C38_lieb_oxford_refuted : Forall (fun p => exceeds_lieb_oxford (snd p) (fst p)) unbounded_functionals.
Proof. exact unbounded_holds. Qed.
Print Assumptions C38_lieb_oxford_refuted.
Example C38_refuted_lists : length unbounded_functionals = 9%nat /\ length oxford_functionals = 7%nat.
Proof. split; reflexivity. Qed.
