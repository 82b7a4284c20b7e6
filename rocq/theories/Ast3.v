(* Generated by tools/gen_src.py: the generated programs of Src3.v, evaluated once. *)
From Coq Require Import List QArith.
From Verif Require Import Bytes Syntax Parser PostProcess PostFast Src.
Import ListNotations.

Definition ast_pol_gga_x_ncap : program := Eval vm_compute in from_some (generated_fast pol_gga_x_ncap).
Lemma gen_pol_gga_x_ncap : generated pol_gga_x_ncap = Some ast_pol_gga_x_ncap.
Proof. apply by_fast. vm_cast_no_check (eq_refl (Some ast_pol_gga_x_ncap)). Qed.
Definition ast_unpol_gga_x_ncap : program := Eval vm_compute in from_some (generated_fast unpol_gga_x_ncap).
Lemma gen_unpol_gga_x_ncap : generated unpol_gga_x_ncap = Some ast_unpol_gga_x_ncap.
Proof. apply by_fast. vm_cast_no_check (eq_refl (Some ast_unpol_gga_x_ncap)). Qed.
Definition ast_pol_gga_x_ol2 : program := Eval vm_compute in from_some (generated_fast pol_gga_x_ol2).
Lemma gen_pol_gga_x_ol2 : generated pol_gga_x_ol2 = Some ast_pol_gga_x_ol2.
Proof. apply by_fast. vm_cast_no_check (eq_refl (Some ast_pol_gga_x_ol2)). Qed.
Definition ast_unpol_gga_x_ol2 : program := Eval vm_compute in from_some (generated_fast unpol_gga_x_ol2).
Lemma gen_unpol_gga_x_ol2 : generated unpol_gga_x_ol2 = Some ast_unpol_gga_x_ol2.
Proof. apply by_fast. vm_cast_no_check (eq_refl (Some ast_unpol_gga_x_ol2)). Qed.
Definition ast_pol_gga_x_optx : program := Eval vm_compute in from_some (generated_fast pol_gga_x_optx).
Lemma gen_pol_gga_x_optx : generated pol_gga_x_optx = Some ast_pol_gga_x_optx.
Proof. apply by_fast. vm_cast_no_check (eq_refl (Some ast_pol_gga_x_optx)). Qed.
Definition ast_unpol_gga_x_optx : program := Eval vm_compute in from_some (generated_fast unpol_gga_x_optx).
Lemma gen_unpol_gga_x_optx : generated unpol_gga_x_optx = Some ast_unpol_gga_x_optx.
Proof. apply by_fast. vm_cast_no_check (eq_refl (Some ast_unpol_gga_x_optx)). Qed.
Definition ast_pol_gga_x_pbe : program := Eval vm_compute in from_some (generated_fast pol_gga_x_pbe).
Lemma gen_pol_gga_x_pbe : generated pol_gga_x_pbe = Some ast_pol_gga_x_pbe.
Proof. apply by_fast. vm_cast_no_check (eq_refl (Some ast_pol_gga_x_pbe)). Qed.
Definition ast_unpol_gga_x_pbe : program := Eval vm_compute in from_some (generated_fast unpol_gga_x_pbe).
Lemma gen_unpol_gga_x_pbe : generated unpol_gga_x_pbe = Some ast_unpol_gga_x_pbe.
Proof. apply by_fast. vm_cast_no_check (eq_refl (Some ast_unpol_gga_x_pbe)). Qed.
Definition ast_pol_gga_x_pbea : program := Eval vm_compute in from_some (generated_fast pol_gga_x_pbea).
Lemma gen_pol_gga_x_pbea : generated pol_gga_x_pbea = Some ast_pol_gga_x_pbea.
Proof. apply by_fast. vm_cast_no_check (eq_refl (Some ast_pol_gga_x_pbea)). Qed.
Definition ast_unpol_gga_x_pbea : program := Eval vm_compute in from_some (generated_fast unpol_gga_x_pbea).
Lemma gen_unpol_gga_x_pbea : generated unpol_gga_x_pbea = Some ast_unpol_gga_x_pbea.
Proof. apply by_fast. vm_cast_no_check (eq_refl (Some ast_unpol_gga_x_pbea)). Qed.
Definition ast_pol_gga_x_pbeint : program := Eval vm_compute in from_some (generated_fast pol_gga_x_pbeint).
Lemma gen_pol_gga_x_pbeint : generated pol_gga_x_pbeint = Some ast_pol_gga_x_pbeint.
Proof. apply by_fast. vm_cast_no_check (eq_refl (Some ast_pol_gga_x_pbeint)). Qed.
Definition ast_unpol_gga_x_pbeint : program := Eval vm_compute in from_some (generated_fast unpol_gga_x_pbeint).
Lemma gen_unpol_gga_x_pbeint : generated unpol_gga_x_pbeint = Some ast_unpol_gga_x_pbeint.
Proof. apply by_fast. vm_cast_no_check (eq_refl (Some ast_unpol_gga_x_pbeint)). Qed.
Definition ast_pol_gga_x_pbepow : program := Eval vm_compute in from_some (generated_fast pol_gga_x_pbepow).
Lemma gen_pol_gga_x_pbepow : generated pol_gga_x_pbepow = Some ast_pol_gga_x_pbepow.
Proof. apply by_fast. vm_cast_no_check (eq_refl (Some ast_pol_gga_x_pbepow)). Qed.
Definition ast_unpol_gga_x_pbepow : program := Eval vm_compute in from_some (generated_fast unpol_gga_x_pbepow).
Lemma gen_unpol_gga_x_pbepow : generated unpol_gga_x_pbepow = Some ast_unpol_gga_x_pbepow.
Proof. apply by_fast. vm_cast_no_check (eq_refl (Some ast_unpol_gga_x_pbepow)). Qed.
Definition ast_pol_gga_x_pbetrans : program := Eval vm_compute in from_some (generated_fast pol_gga_x_pbetrans).
Lemma gen_pol_gga_x_pbetrans : generated pol_gga_x_pbetrans = Some ast_pol_gga_x_pbetrans.
Proof. apply by_fast. vm_cast_no_check (eq_refl (Some ast_pol_gga_x_pbetrans)). Qed.
Definition ast_unpol_gga_x_pbetrans : program := Eval vm_compute in from_some (generated_fast unpol_gga_x_pbetrans).
Lemma gen_unpol_gga_x_pbetrans : generated unpol_gga_x_pbetrans = Some ast_unpol_gga_x_pbetrans.
Proof. apply by_fast. vm_cast_no_check (eq_refl (Some ast_unpol_gga_x_pbetrans)). Qed.
Definition ast_pol_gga_x_pw86 : program := Eval vm_compute in from_some (generated_fast pol_gga_x_pw86).
Lemma gen_pol_gga_x_pw86 : generated pol_gga_x_pw86 = Some ast_pol_gga_x_pw86.
Proof. apply by_fast. vm_cast_no_check (eq_refl (Some ast_pol_gga_x_pw86)). Qed.
Definition ast_unpol_gga_x_pw86 : program := Eval vm_compute in from_some (generated_fast unpol_gga_x_pw86).
Lemma gen_unpol_gga_x_pw86 : generated unpol_gga_x_pw86 = Some ast_unpol_gga_x_pw86.
Proof. apply by_fast. vm_cast_no_check (eq_refl (Some ast_unpol_gga_x_pw86)). Qed.
Definition ast_pol_gga_x_pw91 : program := Eval vm_compute in from_some (generated_fast pol_gga_x_pw91).
Lemma gen_pol_gga_x_pw91 : generated pol_gga_x_pw91 = Some ast_pol_gga_x_pw91.
Proof. apply by_fast. vm_cast_no_check (eq_refl (Some ast_pol_gga_x_pw91)). Qed.
Definition ast_unpol_gga_x_pw91 : program := Eval vm_compute in from_some (generated_fast unpol_gga_x_pw91).
Lemma gen_unpol_gga_x_pw91 : generated unpol_gga_x_pw91 = Some ast_unpol_gga_x_pw91.
Proof. apply by_fast. vm_cast_no_check (eq_refl (Some ast_unpol_gga_x_pw91)). Qed.
Definition ast_pol_gga_x_q1d : program := Eval vm_compute in from_some (generated_fast pol_gga_x_q1d).
Lemma gen_pol_gga_x_q1d : generated pol_gga_x_q1d = Some ast_pol_gga_x_q1d.
Proof. apply by_fast. vm_cast_no_check (eq_refl (Some ast_pol_gga_x_q1d)). Qed.
Definition ast_unpol_gga_x_q1d : program := Eval vm_compute in from_some (generated_fast unpol_gga_x_q1d).
Lemma gen_unpol_gga_x_q1d : generated unpol_gga_x_q1d = Some ast_unpol_gga_x_q1d.
Proof. apply by_fast. vm_cast_no_check (eq_refl (Some ast_unpol_gga_x_q1d)). Qed.
Definition ast_pol_gga_x_q2d : program := Eval vm_compute in from_some (generated_fast pol_gga_x_q2d).
Lemma gen_pol_gga_x_q2d : generated pol_gga_x_q2d = Some ast_pol_gga_x_q2d.
Proof. apply by_fast. vm_cast_no_check (eq_refl (Some ast_pol_gga_x_q2d)). Qed.
Definition ast_unpol_gga_x_q2d : program := Eval vm_compute in from_some (generated_fast unpol_gga_x_q2d).
Lemma gen_unpol_gga_x_q2d : generated unpol_gga_x_q2d = Some ast_unpol_gga_x_q2d.
Proof. apply by_fast. vm_cast_no_check (eq_refl (Some ast_unpol_gga_x_q2d)). Qed.
Definition ast_pol_gga_x_rge2 : program := Eval vm_compute in from_some (generated_fast pol_gga_x_rge2).
Lemma gen_pol_gga_x_rge2 : generated pol_gga_x_rge2 = Some ast_pol_gga_x_rge2.
Proof. apply by_fast. vm_cast_no_check (eq_refl (Some ast_pol_gga_x_rge2)). Qed.
Definition ast_unpol_gga_x_rge2 : program := Eval vm_compute in from_some (generated_fast unpol_gga_x_rge2).
Lemma gen_unpol_gga_x_rge2 : generated unpol_gga_x_rge2 = Some ast_unpol_gga_x_rge2.
Proof. apply by_fast. vm_cast_no_check (eq_refl (Some ast_unpol_gga_x_rge2)). Qed.
Definition ast_pol_gga_x_rpbe : program := Eval vm_compute in from_some (generated_fast pol_gga_x_rpbe).
Lemma gen_pol_gga_x_rpbe : generated pol_gga_x_rpbe = Some ast_pol_gga_x_rpbe.
Proof. apply by_fast. vm_cast_no_check (eq_refl (Some ast_pol_gga_x_rpbe)). Qed.
Definition ast_unpol_gga_x_rpbe : program := Eval vm_compute in from_some (generated_fast unpol_gga_x_rpbe).
Lemma gen_unpol_gga_x_rpbe : generated unpol_gga_x_rpbe = Some ast_unpol_gga_x_rpbe.
Proof. apply by_fast. vm_cast_no_check (eq_refl (Some ast_unpol_gga_x_rpbe)). Qed.
Definition ast_pol_gga_x_s12 : program := Eval vm_compute in from_some (generated_fast pol_gga_x_s12).
Lemma gen_pol_gga_x_s12 : generated pol_gga_x_s12 = Some ast_pol_gga_x_s12.
Proof. apply by_fast. vm_cast_no_check (eq_refl (Some ast_pol_gga_x_s12)). Qed.
Definition ast_unpol_gga_x_s12 : program := Eval vm_compute in from_some (generated_fast unpol_gga_x_s12).
Lemma gen_unpol_gga_x_s12 : generated unpol_gga_x_s12 = Some ast_unpol_gga_x_s12.
Proof. apply by_fast. vm_cast_no_check (eq_refl (Some ast_unpol_gga_x_s12)). Qed.
Definition ast_pol_gga_x_sfat : program := Eval vm_compute in from_some (generated_fast pol_gga_x_sfat).
Lemma gen_pol_gga_x_sfat : generated pol_gga_x_sfat = Some ast_pol_gga_x_sfat.
Proof. apply by_fast. vm_cast_no_check (eq_refl (Some ast_pol_gga_x_sfat)). Qed.
Definition ast_unpol_gga_x_sfat : program := Eval vm_compute in from_some (generated_fast unpol_gga_x_sfat).
Lemma gen_unpol_gga_x_sfat : generated unpol_gga_x_sfat = Some ast_unpol_gga_x_sfat.
Proof. apply by_fast. vm_cast_no_check (eq_refl (Some ast_unpol_gga_x_sfat)). Qed.
Definition ast_pol_gga_x_sfat_pbe : program := Eval vm_compute in from_some (generated_fast pol_gga_x_sfat_pbe).
Lemma gen_pol_gga_x_sfat_pbe : generated pol_gga_x_sfat_pbe = Some ast_pol_gga_x_sfat_pbe.
Proof. apply by_fast. vm_cast_no_check (eq_refl (Some ast_pol_gga_x_sfat_pbe)). Qed.
Definition ast_unpol_gga_x_sfat_pbe : program := Eval vm_compute in from_some (generated_fast unpol_gga_x_sfat_pbe).
Lemma gen_unpol_gga_x_sfat_pbe : generated unpol_gga_x_sfat_pbe = Some ast_unpol_gga_x_sfat_pbe.
Proof. apply by_fast. vm_cast_no_check (eq_refl (Some ast_unpol_gga_x_sfat_pbe)). Qed.
Definition ast_pol_gga_x_sg4 : program := Eval vm_compute in from_some (generated_fast pol_gga_x_sg4).
Lemma gen_pol_gga_x_sg4 : generated pol_gga_x_sg4 = Some ast_pol_gga_x_sg4.
Proof. apply by_fast. vm_cast_no_check (eq_refl (Some ast_pol_gga_x_sg4)). Qed.
Definition ast_unpol_gga_x_sg4 : program := Eval vm_compute in from_some (generated_fast unpol_gga_x_sg4).
Lemma gen_unpol_gga_x_sg4 : generated unpol_gga_x_sg4 = Some ast_unpol_gga_x_sg4.
Proof. apply by_fast. vm_cast_no_check (eq_refl (Some ast_unpol_gga_x_sg4)). Qed.
Definition ast_pol_gga_x_sogga11 : program := Eval vm_compute in from_some (generated_fast pol_gga_x_sogga11).
Lemma gen_pol_gga_x_sogga11 : generated pol_gga_x_sogga11 = Some ast_pol_gga_x_sogga11.
Proof. apply by_fast. vm_cast_no_check (eq_refl (Some ast_pol_gga_x_sogga11)). Qed.
Definition ast_unpol_gga_x_sogga11 : program := Eval vm_compute in from_some (generated_fast unpol_gga_x_sogga11).
Lemma gen_unpol_gga_x_sogga11 : generated unpol_gga_x_sogga11 = Some ast_unpol_gga_x_sogga11.
Proof. apply by_fast. vm_cast_no_check (eq_refl (Some ast_unpol_gga_x_sogga11)). Qed.
Definition ast_pol_gga_x_ssb_sw : program := Eval vm_compute in from_some (generated_fast pol_gga_x_ssb_sw).
Lemma gen_pol_gga_x_ssb_sw : generated pol_gga_x_ssb_sw = Some ast_pol_gga_x_ssb_sw.
Proof. apply by_fast. vm_cast_no_check (eq_refl (Some ast_pol_gga_x_ssb_sw)). Qed.
Definition ast_unpol_gga_x_ssb_sw : program := Eval vm_compute in from_some (generated_fast unpol_gga_x_ssb_sw).
Lemma gen_unpol_gga_x_ssb_sw : generated unpol_gga_x_ssb_sw = Some ast_unpol_gga_x_ssb_sw.
Proof. apply by_fast. vm_cast_no_check (eq_refl (Some ast_unpol_gga_x_ssb_sw)). Qed.
Definition ast_pol_gga_x_vmt : program := Eval vm_compute in from_some (generated_fast pol_gga_x_vmt).
Lemma gen_pol_gga_x_vmt : generated pol_gga_x_vmt = Some ast_pol_gga_x_vmt.
Proof. apply by_fast. vm_cast_no_check (eq_refl (Some ast_pol_gga_x_vmt)). Qed.
Definition ast_unpol_gga_x_vmt : program := Eval vm_compute in from_some (generated_fast unpol_gga_x_vmt).
Lemma gen_unpol_gga_x_vmt : generated unpol_gga_x_vmt = Some ast_unpol_gga_x_vmt.
Proof. apply by_fast. vm_cast_no_check (eq_refl (Some ast_unpol_gga_x_vmt)). Qed.
Definition ast_pol_gga_x_vmt84 : program := Eval vm_compute in from_some (generated_fast pol_gga_x_vmt84).
Lemma gen_pol_gga_x_vmt84 : generated pol_gga_x_vmt84 = Some ast_pol_gga_x_vmt84.
Proof. apply by_fast. vm_cast_no_check (eq_refl (Some ast_pol_gga_x_vmt84)). Qed.
Definition ast_unpol_gga_x_vmt84 : program := Eval vm_compute in from_some (generated_fast unpol_gga_x_vmt84).
Lemma gen_unpol_gga_x_vmt84 : generated unpol_gga_x_vmt84 = Some ast_unpol_gga_x_vmt84.
Proof. apply by_fast. vm_cast_no_check (eq_refl (Some ast_unpol_gga_x_vmt84)). Qed.
Definition ast_pol_gga_x_wc : program := Eval vm_compute in from_some (generated_fast pol_gga_x_wc).
Lemma gen_pol_gga_x_wc : generated pol_gga_x_wc = Some ast_pol_gga_x_wc.
Proof. apply by_fast. vm_cast_no_check (eq_refl (Some ast_pol_gga_x_wc)). Qed.
Definition ast_unpol_gga_x_wc : program := Eval vm_compute in from_some (generated_fast unpol_gga_x_wc).
Lemma gen_unpol_gga_x_wc : generated unpol_gga_x_wc = Some ast_unpol_gga_x_wc.
Proof. apply by_fast. vm_cast_no_check (eq_refl (Some ast_unpol_gga_x_wc)). Qed.
Definition ast_pol_gga_x_wpbeh : program := Eval vm_compute in from_some (generated_fast pol_gga_x_wpbeh).
Lemma gen_pol_gga_x_wpbeh : generated pol_gga_x_wpbeh = Some ast_pol_gga_x_wpbeh.
Proof. apply by_fast. vm_cast_no_check (eq_refl (Some ast_pol_gga_x_wpbeh)). Qed.
Definition ast_unpol_gga_x_wpbeh : program := Eval vm_compute in from_some (generated_fast unpol_gga_x_wpbeh).
Lemma gen_unpol_gga_x_wpbeh : generated unpol_gga_x_wpbeh = Some ast_unpol_gga_x_wpbeh.
Proof. apply by_fast. vm_cast_no_check (eq_refl (Some ast_unpol_gga_x_wpbeh)). Qed.
Definition ast_pol_gga_xc_b97 : program := Eval vm_compute in from_some (generated_fast pol_gga_xc_b97).
Lemma gen_pol_gga_xc_b97 : generated pol_gga_xc_b97 = Some ast_pol_gga_xc_b97.
Proof. apply by_fast. vm_cast_no_check (eq_refl (Some ast_pol_gga_xc_b97)). Qed.
Definition ast_unpol_gga_xc_b97 : program := Eval vm_compute in from_some (generated_fast unpol_gga_xc_b97).
Lemma gen_unpol_gga_xc_b97 : generated unpol_gga_xc_b97 = Some ast_unpol_gga_xc_b97.
Proof. apply by_fast. vm_cast_no_check (eq_refl (Some ast_unpol_gga_xc_b97)). Qed.
Definition ast_pol_gga_xc_th1 : program := Eval vm_compute in from_some (generated_fast pol_gga_xc_th1).
Lemma gen_pol_gga_xc_th1 : generated pol_gga_xc_th1 = Some ast_pol_gga_xc_th1.
Proof. apply by_fast. vm_cast_no_check (eq_refl (Some ast_pol_gga_xc_th1)). Qed.
Definition ast_unpol_gga_xc_th1 : program := Eval vm_compute in from_some (generated_fast unpol_gga_xc_th1).
Lemma gen_unpol_gga_xc_th1 : generated unpol_gga_xc_th1 = Some ast_unpol_gga_xc_th1.
Proof. apply by_fast. vm_cast_no_check (eq_refl (Some ast_unpol_gga_xc_th1)). Qed.
Definition ast_pol_gga_xc_th2 : program := Eval vm_compute in from_some (generated_fast pol_gga_xc_th2).
Lemma gen_pol_gga_xc_th2 : generated pol_gga_xc_th2 = Some ast_pol_gga_xc_th2.
Proof. apply by_fast. vm_cast_no_check (eq_refl (Some ast_pol_gga_xc_th2)). Qed.
Definition ast_unpol_gga_xc_th2 : program := Eval vm_compute in from_some (generated_fast unpol_gga_xc_th2).
Lemma gen_unpol_gga_xc_th2 : generated unpol_gga_xc_th2 = Some ast_unpol_gga_xc_th2.
Proof. apply by_fast. vm_cast_no_check (eq_refl (Some ast_unpol_gga_xc_th2)). Qed.
Definition ast_pol_gga_xc_th3 : program := Eval vm_compute in from_some (generated_fast pol_gga_xc_th3).
Lemma gen_pol_gga_xc_th3 : generated pol_gga_xc_th3 = Some ast_pol_gga_xc_th3.
Proof. apply by_fast. vm_cast_no_check (eq_refl (Some ast_pol_gga_xc_th3)). Qed.
Definition ast_unpol_gga_xc_th3 : program := Eval vm_compute in from_some (generated_fast unpol_gga_xc_th3).
Lemma gen_unpol_gga_xc_th3 : generated unpol_gga_xc_th3 = Some ast_unpol_gga_xc_th3.
Proof. apply by_fast. vm_cast_no_check (eq_refl (Some ast_unpol_gga_xc_th3)). Qed.
Definition ast_pol_hyb_gga_x_cam_s12 : program := Eval vm_compute in from_some (generated_fast pol_hyb_gga_x_cam_s12).
Lemma gen_pol_hyb_gga_x_cam_s12 : generated pol_hyb_gga_x_cam_s12 = Some ast_pol_hyb_gga_x_cam_s12.
Proof. apply by_fast. vm_cast_no_check (eq_refl (Some ast_pol_hyb_gga_x_cam_s12)). Qed.
Definition ast_unpol_hyb_gga_x_cam_s12 : program := Eval vm_compute in from_some (generated_fast unpol_hyb_gga_x_cam_s12).
Lemma gen_unpol_hyb_gga_x_cam_s12 : generated unpol_hyb_gga_x_cam_s12 = Some ast_unpol_hyb_gga_x_cam_s12.
Proof. apply by_fast. vm_cast_no_check (eq_refl (Some ast_unpol_hyb_gga_x_cam_s12)). Qed.
Definition ast_pol_hyb_gga_xc_case21 : program := Eval vm_compute in from_some (generated_fast pol_hyb_gga_xc_case21).
Lemma gen_pol_hyb_gga_xc_case21 : generated pol_hyb_gga_xc_case21 = Some ast_pol_hyb_gga_xc_case21.
Proof. apply by_fast. vm_cast_no_check (eq_refl (Some ast_pol_hyb_gga_xc_case21)). Qed.
Definition ast_unpol_hyb_gga_xc_case21 : program := Eval vm_compute in from_some (generated_fast unpol_hyb_gga_xc_case21).
Lemma gen_unpol_hyb_gga_xc_case21 : generated unpol_hyb_gga_xc_case21 = Some ast_unpol_hyb_gga_xc_case21.
Proof. apply by_fast. vm_cast_no_check (eq_refl (Some ast_unpol_hyb_gga_xc_case21)). Qed.
Definition ast_pol_hyb_gga_xc_wb97 : program := Eval vm_compute in from_some (generated_fast pol_hyb_gga_xc_wb97).
Lemma gen_pol_hyb_gga_xc_wb97 : generated pol_hyb_gga_xc_wb97 = Some ast_pol_hyb_gga_xc_wb97.
Proof. apply by_fast. vm_cast_no_check (eq_refl (Some ast_pol_hyb_gga_xc_wb97)). Qed.
Definition ast_unpol_hyb_gga_xc_wb97 : program := Eval vm_compute in from_some (generated_fast unpol_hyb_gga_xc_wb97).
Lemma gen_unpol_hyb_gga_xc_wb97 : generated unpol_hyb_gga_xc_wb97 = Some ast_unpol_hyb_gga_xc_wb97.
Proof. apply by_fast. vm_cast_no_check (eq_refl (Some ast_unpol_hyb_gga_xc_wb97)). Qed.
Definition ast_pol_hyb_lda_xc_bn05 : program := Eval vm_compute in from_some (generated_fast pol_hyb_lda_xc_bn05).
Lemma gen_pol_hyb_lda_xc_bn05 : generated pol_hyb_lda_xc_bn05 = Some ast_pol_hyb_lda_xc_bn05.
Proof. apply by_fast. vm_cast_no_check (eq_refl (Some ast_pol_hyb_lda_xc_bn05)). Qed.
Definition ast_unpol_hyb_lda_xc_bn05 : program := Eval vm_compute in from_some (generated_fast unpol_hyb_lda_xc_bn05).
Lemma gen_unpol_hyb_lda_xc_bn05 : generated unpol_hyb_lda_xc_bn05 = Some ast_unpol_hyb_lda_xc_bn05.
Proof. apply by_fast. vm_cast_no_check (eq_refl (Some ast_unpol_hyb_lda_xc_bn05)). Qed.
Definition ast_pol_hyb_mgga_x_dldf : program := Eval vm_compute in from_some (generated_fast pol_hyb_mgga_x_dldf).
Lemma gen_pol_hyb_mgga_x_dldf : generated pol_hyb_mgga_x_dldf = Some ast_pol_hyb_mgga_x_dldf.
Proof. apply by_fast. vm_cast_no_check (eq_refl (Some ast_pol_hyb_mgga_x_dldf)). Qed.
Definition ast_unpol_hyb_mgga_x_dldf : program := Eval vm_compute in from_some (generated_fast unpol_hyb_mgga_x_dldf).
Lemma gen_unpol_hyb_mgga_x_dldf : generated unpol_hyb_mgga_x_dldf = Some ast_unpol_hyb_mgga_x_dldf.
Proof. apply by_fast. vm_cast_no_check (eq_refl (Some ast_unpol_hyb_mgga_x_dldf)). Qed.
Definition ast_pol_hyb_mgga_x_js18 : program := Eval vm_compute in from_some (generated_fast pol_hyb_mgga_x_js18).
Lemma gen_pol_hyb_mgga_x_js18 : generated pol_hyb_mgga_x_js18 = Some ast_pol_hyb_mgga_x_js18.
Proof. apply by_fast. vm_cast_no_check (eq_refl (Some ast_pol_hyb_mgga_x_js18)). Qed.
Definition ast_unpol_hyb_mgga_x_js18 : program := Eval vm_compute in from_some (generated_fast unpol_hyb_mgga_x_js18).
Lemma gen_unpol_hyb_mgga_x_js18 : generated unpol_hyb_mgga_x_js18 = Some ast_unpol_hyb_mgga_x_js18.
Proof. apply by_fast. vm_cast_no_check (eq_refl (Some ast_unpol_hyb_mgga_x_js18)). Qed.
Definition ast_pol_hyb_mgga_x_m05 : program := Eval vm_compute in from_some (generated_fast pol_hyb_mgga_x_m05).
Lemma gen_pol_hyb_mgga_x_m05 : generated pol_hyb_mgga_x_m05 = Some ast_pol_hyb_mgga_x_m05.
Proof. apply by_fast. vm_cast_no_check (eq_refl (Some ast_pol_hyb_mgga_x_m05)). Qed.
Definition ast_unpol_hyb_mgga_x_m05 : program := Eval vm_compute in from_some (generated_fast unpol_hyb_mgga_x_m05).
Lemma gen_unpol_hyb_mgga_x_m05 : generated unpol_hyb_mgga_x_m05 = Some ast_unpol_hyb_mgga_x_m05.
Proof. apply by_fast. vm_cast_no_check (eq_refl (Some ast_unpol_hyb_mgga_x_m05)). Qed.
Definition ast_pol_hyb_mgga_x_pjs18 : program := Eval vm_compute in from_some (generated_fast pol_hyb_mgga_x_pjs18).
Lemma gen_pol_hyb_mgga_x_pjs18 : generated pol_hyb_mgga_x_pjs18 = Some ast_pol_hyb_mgga_x_pjs18.
Proof. apply by_fast. vm_cast_no_check (eq_refl (Some ast_pol_hyb_mgga_x_pjs18)). Qed.
Definition ast_unpol_hyb_mgga_x_pjs18 : program := Eval vm_compute in from_some (generated_fast unpol_hyb_mgga_x_pjs18).
Lemma gen_unpol_hyb_mgga_x_pjs18 : generated unpol_hyb_mgga_x_pjs18 = Some ast_unpol_hyb_mgga_x_pjs18.
Proof. apply by_fast. vm_cast_no_check (eq_refl (Some ast_unpol_hyb_mgga_x_pjs18)). Qed.
