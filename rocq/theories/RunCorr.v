(** Correlation energies: runs of the checks of Corr.v. *)
From Coq Require Import List QArith NArith Bool.
From Verif Require Import Bytes Src Ast Semantics Families Interval Absint Defined Domains Library Refute Precise Corr.
Import ListNotations.

(** ** Energies that are never positive *)
Definition r_gga_c_am05 : domain := {| d_level := Gga false; d_pars := [("params.alpha"%b, SNonneg); ("params.gamma"%b, SIn 0 1)] |}.
Definition r_lda_c_pw : domain := {| d_level := Lda; d_pars := [
  ("params.a[0]"%b, SPos); ("params.a[1]"%b, SPos); ("params.a[2]"%b, SPos);
  ("params.alpha1[0]"%b, SNonneg); ("params.alpha1[1]"%b, SNonneg); ("params.alpha1[2]"%b, SNonneg);
  ("params.beta1[0]"%b, SNonneg); ("params.beta1[1]"%b, SNonneg); ("params.beta1[2]"%b, SNonneg);
  ("params.beta2[0]"%b, SNonneg); ("params.beta2[1]"%b, SNonneg); ("params.beta2[2]"%b, SNonneg);
  ("params.beta3[0]"%b, SNonneg); ("params.beta3[1]"%b, SNonneg); ("params.beta3[2]"%b, SNonneg);
  ("params.beta4[0]"%b, SPos); ("params.beta4[1]"%b, SPos); ("params.beta4[2]"%b, SPos);
  ("params.fz20"%b, SPos); ("params.pp[0]"%b, SAny); ("params.pp[1]"%b, SAny); ("params.pp[2]"%b, SAny)] |}.
Definition below : sort := SIn (-1000000) 0.
Definition r_lda_c_wigner : domain := {| d_level := Lda; d_pars := [("params.a"%b, below); ("params.b"%b, SNonneg)] |}.
Definition r_chachiyo : domain := {| d_level := Lda; d_pars := [
  ("params.af"%b, below); ("params.ap"%b, below); ("params.bf"%b, SNonneg); ("params.bp"%b, SNonneg);
  ("params.cf"%b, SNonneg); ("params.cp"%b, SNonneg)] |}.
Definition corr_functionals : list (source * domain) := [
  (f_gga_c_op_b88, d_gga_c_op_b88); (f_gga_c_op_g96, d_gga_c_op_g96); (f_gga_c_op_pbe, d_gga_c_op_pbe);
  (f_gga_c_op_xalpha, d_gga_c_op_xalpha); (f_gga_c_w94, d_gga_c_w94); (f_lda_xc_teter93, d_lda_xc_teter93)].
Definition corr_compiled : list (compiled * domain) := [
  (a_gga_c_op_b88, d_gga_c_op_b88); (a_gga_c_op_g96, d_gga_c_op_g96); (a_gga_c_op_pbe, d_gga_c_op_pbe);
  (a_gga_c_op_xalpha, d_gga_c_op_xalpha); (a_gga_c_w94, d_gga_c_w94); (a_lda_xc_teter93, d_lda_xc_teter93)].
Definition corr_unpol_functionals : list (source * domain) := [
  (f_gga_c_am05, r_gga_c_am05); (f_lda_c_chachiyo, r_chachiyo); (f_lda_c_chachiyo_mod, r_chachiyo);
  (f_lda_c_pw, r_lda_c_pw); (f_lda_c_wigner, r_lda_c_wigner); (f_mgga_c_cc, d_mgga_c_cc); (f_mgga_c_ltapw, d_mgga_c_ltapw)].
Definition corr_unpol_compiled : list (compiled * domain) := [
  (a_gga_c_am05, r_gga_c_am05); (a_lda_c_chachiyo, r_chachiyo); (a_lda_c_chachiyo_mod, r_chachiyo);
  (a_lda_c_pw, r_lda_c_pw); (a_lda_c_wigner, r_lda_c_wigner); (a_mgga_c_cc, d_mgga_c_cc); (a_mgga_c_ltapw, d_mgga_c_ltapw)].
Lemma corr_run : forallb check_corr corr_compiled = true.
Proof. vm_cast_no_check (eq_refl true). Qed.
Lemma corr_unpol_run : forallb check_corr_unpol corr_unpol_compiled = true.
Proof. vm_cast_no_check (eq_refl true). Qed.
Lemma corr_sources : map (fun p => (c_src (fst p), snd p)) corr_compiled = corr_functionals.
Proof. reflexivity. Qed.
Lemma corr_unpol_sources : map (fun p => (c_src (fst p), snd p)) corr_unpol_compiled = corr_unpol_functionals.
Proof. reflexivity. Qed.
Lemma corr_holds : Forall (fun p => returns_nonpositive (snd p) (fst p)) corr_functionals.
Proof.
  rewrite <- corr_sources. apply Forall_forall. intros x Hx. apply in_map_iff in Hx. destruct Hx as (p & <- & Hp).
  exact (corr_sound p (proj1 (forallb_forall _ _) corr_run p Hp)).
Qed.
Lemma corr_unpol_holds : Forall (fun p => returns_nonpositive_unpol (snd p) (fst p)) corr_unpol_functionals.
Proof.
  rewrite <- corr_unpol_sources. apply Forall_forall. intros x Hx. apply in_map_iff in Hx. destruct Hx as (p & <- & Hp).
  exact (corr_unpol_sound p (proj1 (forallb_forall _ _) corr_unpol_run p Hp)).
Qed.

(** ** Energies that are positive at some point *)
Definition small : qlist := [("p.zeta_threshold"%b, 1 # 1000000000000); ("p.dens_threshold"%b, 1 # 1000000000000)].
(** The parameters of Lee, Yang and Parr. *)
Definition lyp_values : qlist :=
  small ++ [("params.a"%b, 4918 # 100000); ("params.b"%b, 132 # 1000); ("params.c"%b, 2533 # 10000); ("params.d"%b, 349 # 1000)].
(** Equal densities in the two channels, with gradients that are nearly parallel. *)
Definition spot (r g t : Q) : place := {|
  q_r0 := r; q_r1 := r; q_a := g; q_b := (99 # 100) * g; q_c := (14 # 100) * g; q_l0 := 0; q_l1 := 0; q_t0 := t; q_t1 := t |}.
Definition thin : Q := 1 # 1000000.
Definition positive_corr_compiled : list (compiled * (qlist * place)) := [
  (a_gga_c_cs1, (small, spot thin thin 0)); (a_gga_c_gapc, (small, spot 1 100 0)); (a_gga_c_hcth_a, (small, spot thin thin 0));
  (a_gga_c_lyp, (lyp_values, spot (1 # 2) 10 0)); (a_gga_c_wl, (small, spot thin thin 0));
  (a_lda_c_1d_loos, (small, spot 100 0 0)); (a_lda_c_gk72, (small, spot thin 0 0)); (a_lda_c_rpa, (small, spot thin 0 0));
  (a_mgga_c_cs, (small, spot (1 # 1000) (1 # 100) (166 # 1000))); (a_mgga_c_revscan, (small, spot thin thin (158 # 100000)))].
Definition positive_corr_functionals : list (source * qlist) := [
  (f_gga_c_cs1, small); (f_gga_c_gapc, small); (f_gga_c_hcth_a, small); (f_gga_c_lyp, lyp_values); (f_gga_c_wl, small);
  (f_lda_c_1d_loos, small); (f_lda_c_gk72, small); (f_lda_c_rpa, small); (f_mgga_c_cs, small); (f_mgga_c_revscan, small)].
Lemma positive_corr_run : forallb (fun p => @check_positive (close 40 2) (fst p) (fst (snd p)) (snd (snd p))) positive_corr_compiled = true.
Proof. vm_cast_no_check (eq_refl true). Qed.
Lemma positive_corr_sources : map (fun p => (c_src (fst p), fst (snd p))) positive_corr_compiled = positive_corr_functionals.
Proof. reflexivity. Qed.
Lemma positive_corr_holds : Forall (fun p => returns_positive (snd p) (fst p)) positive_corr_functionals.
Proof.
  rewrite <- positive_corr_sources. apply Forall_forall. intros x Hx. apply in_map_iff in Hx. destruct Hx as (p & <- & Hp).
  exact (@positive_sound _ (close_pi 40 2) _ _ _ (proj1 (forallb_forall _ _) positive_corr_run p Hp)).
Qed.
