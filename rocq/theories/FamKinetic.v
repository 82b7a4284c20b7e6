(** Sign of the kinetic energy: run of the check of Kinetic.v. Written by tools/gen_domains.py. *)
From Coq Require Import List QArith.
From Verif Require Import Bytes Syntax Parser PostProcess Src Ast Semantics Interval Absint Defined Library Kinetic FamExact.
Import ListNotations.

Definition k_gga_k_apbe : domain := {| d_level := Gga false; d_pars := [("params.kappa"%b, SPos); ("params.mu"%b, SNonneg)] |}.
Definition k_gga_k_dk : domain := {| d_level := Gga false; d_pars := [("params.aa[0]"%b, SNonneg); ("params.aa[1]"%b, SNonneg); ("params.aa[2]"%b, SNonneg);
  ("params.aa[3]"%b, SNonneg); ("params.aa[4]"%b, SNonneg); ("params.bb[0]"%b, SPos);
  ("params.bb[1]"%b, SNonneg); ("params.bb[2]"%b, SNonneg); ("params.bb[3]"%b, SNonneg);
  ("params.bb[4]"%b, SNonneg)] |}.
Definition k_gga_k_lgap : domain := {| d_level := Gga false; d_pars := [("params.kappa"%b, SNonneg); ("params.mu[0]"%b, SNonneg); ("params.mu[1]"%b, SNonneg);
  ("params.mu[2]"%b, SNonneg)] |}.
Definition k_gga_k_lgap_ge : domain := {| d_level := Gga false; d_pars := [("params.mu[0]"%b, SNonneg); ("params.mu[1]"%b, SNonneg); ("params.mu[2]"%b, SNonneg)] |}.
Definition k_gga_k_lkt : domain := {| d_level := Gga false; d_pars := [("params.a"%b, SAny)] |}.
Definition k_gga_k_llp : domain := {| d_level := Gga false; d_pars := [("params.beta"%b, SNonneg); ("params.gamma"%b, SNonneg)] |}.
Definition k_gga_k_mpbe : domain := {| d_level := Gga false; d_pars := [("params.a"%b, SNonneg); ("params.c1"%b, SNonneg); ("params.c2"%b, SNonneg);
  ("params.c3"%b, SNonneg)] |}.
Definition k_gga_k_ol1 : domain := {| d_level := Gga false; d_pars := [] |}.
Definition k_gga_k_ol2 : domain := {| d_level := Gga false; d_pars := [("params.aa"%b, SNonneg); ("params.bb"%b, SNonneg); ("params.cc"%b, SNonneg)] |}.
Definition k_gga_k_pearson : domain := {| d_level := Gga false; d_pars := [] |}.
Definition k_gga_k_pg : domain := {| d_level := Gga false; d_pars := [("params.pg_mu"%b, SAny)] |}.
Definition k_gga_k_pw86 : domain := {| d_level := Gga false; d_pars := [] |}.
Definition k_gga_k_rational_p : domain := {| d_level := Gga false; d_pars := [("params.C2"%b, SNonneg); ("params.p"%b, SPos)] |}.
Definition k_gga_k_tflw : domain := {| d_level := Gga false; d_pars := [("params.gamma"%b, SNonneg); ("params.lambda_"%b, SNonneg)] |}.
Definition k_lda_k_tf : domain := {| d_level := Lda; d_pars := [("params.ax"%b, SNonneg)] |}.
Definition k_mgga_k_pgslb : domain := {| d_level := Mgga false; d_pars := [("params.pgslb_beta"%b, SNonneg); ("params.pgslb_mu"%b, SNonneg)] |}.
Definition kinetic_list : list (compiled * domain) := [
  (a_gga_k_apbe, k_gga_k_apbe); (a_gga_k_dk, k_gga_k_dk); (a_gga_k_lgap, k_gga_k_lgap);
  (a_gga_k_lgap_ge, k_gga_k_lgap_ge); (a_gga_k_lkt, k_gga_k_lkt); (a_gga_k_llp, k_gga_k_llp);
  (a_gga_k_mpbe, k_gga_k_mpbe); (a_gga_k_ol1, k_gga_k_ol1); (a_gga_k_ol2, k_gga_k_ol2);
  (a_gga_k_pearson, k_gga_k_pearson); (a_gga_k_pg, k_gga_k_pg); (a_gga_k_pw86, k_gga_k_pw86);
  (a_gga_k_rational_p, k_gga_k_rational_p); (a_gga_k_tflw, k_gga_k_tflw);
  (a_lda_k_tf, k_lda_k_tf); (a_mgga_k_pgslb, k_mgga_k_pgslb)].
Definition kinetic_functionals : list (source * domain) := [
  (f_gga_k_apbe, k_gga_k_apbe); (f_gga_k_dk, k_gga_k_dk); (f_gga_k_lgap, k_gga_k_lgap);
  (f_gga_k_lgap_ge, k_gga_k_lgap_ge); (f_gga_k_lkt, k_gga_k_lkt); (f_gga_k_llp, k_gga_k_llp);
  (f_gga_k_mpbe, k_gga_k_mpbe); (f_gga_k_ol1, k_gga_k_ol1); (f_gga_k_ol2, k_gga_k_ol2);
  (f_gga_k_pearson, k_gga_k_pearson); (f_gga_k_pg, k_gga_k_pg); (f_gga_k_pw86, k_gga_k_pw86);
  (f_gga_k_rational_p, k_gga_k_rational_p); (f_gga_k_tflw, k_gga_k_tflw);
  (f_lda_k_tf, k_lda_k_tf); (f_mgga_k_pgslb, k_mgga_k_pgslb)].
Lemma kinetic_run : forallb check_kinetic kinetic_list = true.
Proof. vm_cast_no_check (eq_refl true). Qed.
Lemma kinetic_holds : Forall (fun p => returns_nonnegative (snd p) (fst p)) kinetic_functionals.
Proof.
  change kinetic_functionals with (map srcd kinetic_list). apply Forall_srcd. apply Forall_forall. intros p H.
  pose proof kinetic_run as E. rewrite forallb_forall in E. exact (kinetic_sound p (E p H)).
Qed.
