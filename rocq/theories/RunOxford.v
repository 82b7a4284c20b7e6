(** The Lieb-Oxford bound: runs of the checks of Oxford.v. *)
From Coq Require Import List QArith NArith Bool.
From Verif Require Import Bytes Src Ast Semantics Families Fam FamSamples Interval Absint AbsintThm Defined Refute Precise Oxford.
Import ListNotations.

(** Parameters: kappa in (0, 0.804]; the coefficients of the gradient are not negative; the
    factor of the Slater exchange is in (0, 1]. *)
Definition kappa_in : sort := SIn 0 (201 # 250).
Definition o_gga_x_pbe : domain := {| d_level := Gga false; d_pars := [("params.kappa"%b, kappa_in); ("params.mu"%b, SNonneg)] |}.
Definition o_gga_x_rpbe : domain := {| d_level := Gga false; d_pars := [("params.rpbe_kappa"%b, kappa_in); ("params.rpbe_mu"%b, SAny)] |}.
Definition o_gga_x_pbea : domain := {| d_level := Gga false; d_pars := [] |}.
Definition o_gga_x_wc : domain := {| d_level := Gga false; d_pars := [] |}.
Definition o_gga_x_lspbe : domain := {| d_level := Gga false; d_pars := [("params.alpha"%b, SNonneg); ("params.kappa"%b, kappa_in); ("params.mu"%b, SNonneg)] |}.
Definition o_gga_x_lsrpbe : domain := {| d_level := Gga false; d_pars := [("params.alpha"%b, SNonneg); ("params.kappa"%b, kappa_in); ("params.mu"%b, SNonneg)] |}.
Definition o_lda_x : domain := {| d_level := Lda; d_pars := [("params.alpha"%b, SIn 0 1)] |}.
Definition oxford_functionals : list (source * domain) := [
  (f_lda_x, o_lda_x); (f_gga_x_lspbe, o_gga_x_lspbe); (f_gga_x_lsrpbe, o_gga_x_lsrpbe); (f_gga_x_pbe, o_gga_x_pbe);
  (f_gga_x_pbea, o_gga_x_pbea); (f_gga_x_rpbe, o_gga_x_rpbe); (f_gga_x_wc, o_gga_x_wc)].
Definition oxford_compiled : list (compiled * domain) := [
  (a_lda_x, o_lda_x); (a_gga_x_lspbe, o_gga_x_lspbe); (a_gga_x_lsrpbe, o_gga_x_lsrpbe); (a_gga_x_pbe, o_gga_x_pbe);
  (a_gga_x_pbea, o_gga_x_pbea); (a_gga_x_rpbe, o_gga_x_rpbe); (a_gga_x_wc, o_gga_x_wc)].
Lemma oxford_run : forallb check_oxford oxford_compiled = true.
Proof. vm_cast_no_check (eq_refl true). Qed.
Lemma oxford_by c d f : c_src c = f -> In (c, d) oxford_compiled -> In f closed_shell_functionals -> In f scale1_functionals ->
  In f spin_functionals -> In f scru_functionals -> obeys_lieb_oxford d f.
Proof.
  intros <- M C Sc Sp Sr. apply (oxford_sound (c, d) (proj1 (forallb_forall _ _) oxford_run _ M)).
  - exact (proj1 (Forall_forall _ _) closed_shell_holds _ C).
  - exact (proj1 (Forall_forall _ _) scale1_holds _ Sc).
  - exact (proj1 (Forall_forall _ _) spin_holds _ Sp).
  - exact (proj1 (Forall_forall _ _) scru_holds _ Sr).
Qed.
Lemma oxford_holds : Forall (fun p => obeys_lieb_oxford (snd p) (fst p)) oxford_functionals.
Proof.
  constructor; [apply (oxford_by a_lda_x o_lda_x f_lda_x eq_refl); in_list|].
  constructor; [apply (oxford_by a_gga_x_lspbe o_gga_x_lspbe f_gga_x_lspbe eq_refl); in_list|].
  constructor; [apply (oxford_by a_gga_x_lsrpbe o_gga_x_lsrpbe f_gga_x_lsrpbe eq_refl); in_list|].
  constructor; [apply (oxford_by a_gga_x_pbe o_gga_x_pbe f_gga_x_pbe eq_refl); in_list|].
  constructor; [apply (oxford_by a_gga_x_pbea o_gga_x_pbea f_gga_x_pbea eq_refl); in_list|].
  constructor; [apply (oxford_by a_gga_x_rpbe o_gga_x_rpbe f_gga_x_rpbe eq_refl); in_list|].
  constructor; [apply (oxford_by a_gga_x_wc o_gga_x_wc f_gga_x_wc eq_refl); in_list|].
  constructor.
Qed.

(** Formulas without a bound on the enhancement, with their published parameters. *)
Definition b88_params : qlist := [("params.beta"%b, 42 # 10000); ("params.gamma"%b, 6 # 1)].
Definition pw86_params : qlist := [("params.aa"%b, 1296 # 1000); ("params.bb"%b, 14 # 1); ("params.cc"%b, 1 # 5)].
Definition optx_params : qlist := [("params.a"%b, 105151 # 100000); ("params.b"%b, 143169 # 100000); ("params.gamma"%b, 6 # 1000)].
Definition unbounded_functionals : list (source * qlist) := [
  (f_gga_x_airy, []); (f_gga_x_bayesian, []); (f_gga_x_c09x, []); (f_gga_x_g96, []); (f_gga_x_herman, []); (f_gga_x_lag, []);
  (f_gga_x_b88, b88_params); (f_gga_x_optx, optx_params); (f_gga_x_pw86, pw86_params)].
Definition unbounded_compiled : list (compiled * qlist) := [
  (a_gga_x_airy, []); (a_gga_x_bayesian, []); (a_gga_x_c09x, []); (a_gga_x_g96, []); (a_gga_x_herman, []); (a_gga_x_lag, []);
  (a_gga_x_b88, b88_params); (a_gga_x_optx, optx_params); (a_gga_x_pw86, pw86_params)].
Lemma unbounded_run : forallb (fun p => @refute_oxford (close 64 8) (snd p) 1000 (fst p)) unbounded_compiled = true.
Proof. vm_cast_no_check (eq_refl true). Qed.
Lemma unbounded_sources : map (fun p => (c_src (fst p), snd p)) unbounded_compiled = unbounded_functionals.
Proof. reflexivity. Qed.
Lemma unbounded_holds : Forall (fun p => exceeds_lieb_oxford (snd p) (fst p)) unbounded_functionals.
Proof.
  rewrite <- unbounded_sources. apply Forall_forall. intros x Hx. apply in_map_iff in Hx. destruct Hx as (p & <- & Hp).
  exact (@refute_oxford_sound _ (close_pi 64 8) _ _ _ (proj1 (forallb_forall _ _) unbounded_run p Hp)).
Qed.
