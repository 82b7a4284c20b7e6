(** Sign of polarized exchange: run of the abstract interpreter. Written by tools/gen_domains.py. *)
From Coq Require Import List.
From Verif Require Import Bytes Syntax Parser PostProcess Src Ast Semantics Interval Absint Defined Domains.
Import ListNotations.

Definition negp_list1 : list (compiled * domain) := [
  (a_gga_x_2d_b86, n_gga_x_2d_b86); (a_gga_x_2d_b86_mgc, n_gga_x_2d_b86_mgc);
  (a_gga_x_2d_b88, n_gga_x_2d_b88); (a_gga_x_2d_pbe, n_gga_x_2d_pbe);
  (a_gga_x_ak13, n_gga_x_ak13); (a_gga_x_b86, n_gga_x_b86); (a_gga_x_b88, n_gga_x_b88);
  (a_gga_x_bayesian, n_gga_x_bayesian); (a_gga_x_c09x, n_gga_x_c09x);
  (a_gga_x_chachiyo, n_gga_x_chachiyo); (a_gga_x_dk87, n_gga_x_dk87);
  (a_gga_x_ev93, n_gga_x_ev93); (a_gga_x_ft97, n_gga_x_ft97); (a_gga_x_g96, n_gga_x_g96);
  (a_gga_x_herman, n_gga_x_herman); (a_gga_x_lag, n_gga_x_lag); (a_gga_x_lg93, n_gga_x_lg93);
  (a_gga_x_lv_rpw86, n_gga_x_lv_rpw86); (a_gga_x_mpbe, n_gga_x_mpbe); (a_gga_x_n12, n_gga_x_n12);
  (a_gga_x_ol2, n_gga_x_ol2); (a_gga_x_optx, n_gga_x_optx); (a_gga_x_pbe, n_gga_x_pbe);
  (a_gga_x_pbetrans, n_gga_x_pbetrans); (a_gga_x_pw86, n_gga_x_pw86);
  (a_gga_x_rge2, n_gga_x_rge2); (a_gga_x_rpbe, n_gga_x_rpbe); (a_gga_x_s12, n_gga_x_s12);
  (a_gga_x_sogga11, n_gga_x_sogga11); (a_gga_x_vmt, n_gga_x_vmt); (a_gga_x_wc, n_gga_x_wc);
  (a_lda_x, n_lda_x); (a_lda_x_2d, n_lda_x_2d); (a_lda_x_sloc, n_lda_x_sloc);
  (a_mgga_x_lta, n_mgga_x_lta); (a_mgga_x_th, n_mgga_x_th)].
Lemma negp_run1 : forallb (fun p => nonpos_itv (bounds_pol (snd p) (fst p))) negp_list1 = true.
Proof. vm_cast_no_check (eq_refl true). Qed.
Lemma negp_all1 : Forall (fun p => nonpositive_pol (snd p) (c_src (fst p))) negp_list1.
Proof.
  apply Forall_forall. intros p H. pose proof negp_run1 as E. rewrite forallb_forall in E.
  exact (nonpositive_pol_sound (snd p) (fst p) (E p H)).
Qed.
