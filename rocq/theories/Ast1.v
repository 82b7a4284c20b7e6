(* Generated by tools/gen_src.py: the generated programs of Src1.v, evaluated once. *)
From Coq Require Import List QArith.
From Verif Require Import Bytes Syntax Parser PostProcess PostFast Src.
Import ListNotations.

Definition ast_pol_gga_c_acgga : program := Eval vm_compute in from_some (generated_fast pol_gga_c_acgga).
Lemma gen_pol_gga_c_acgga : generated pol_gga_c_acgga = Some ast_pol_gga_c_acgga.
Proof. apply by_fast. vm_cast_no_check (eq_refl (Some ast_pol_gga_c_acgga)). Qed.
Definition ast_unpol_gga_c_acgga : program := Eval vm_compute in from_some (generated_fast unpol_gga_c_acgga).
Lemma gen_unpol_gga_c_acgga : generated unpol_gga_c_acgga = Some ast_unpol_gga_c_acgga.
Proof. apply by_fast. vm_cast_no_check (eq_refl (Some ast_unpol_gga_c_acgga)). Qed.
Definition ast_pol_gga_c_acggap : program := Eval vm_compute in from_some (generated_fast pol_gga_c_acggap).
Lemma gen_pol_gga_c_acggap : generated pol_gga_c_acggap = Some ast_pol_gga_c_acggap.
Proof. apply by_fast. vm_cast_no_check (eq_refl (Some ast_pol_gga_c_acggap)). Qed.
Definition ast_unpol_gga_c_acggap : program := Eval vm_compute in from_some (generated_fast unpol_gga_c_acggap).
Lemma gen_unpol_gga_c_acggap : generated unpol_gga_c_acggap = Some ast_unpol_gga_c_acggap.
Proof. apply by_fast. vm_cast_no_check (eq_refl (Some ast_unpol_gga_c_acggap)). Qed.
Definition ast_pol_gga_c_am05 : program := Eval vm_compute in from_some (generated_fast pol_gga_c_am05).
Lemma gen_pol_gga_c_am05 : generated pol_gga_c_am05 = Some ast_pol_gga_c_am05.
Proof. apply by_fast. vm_cast_no_check (eq_refl (Some ast_pol_gga_c_am05)). Qed.
Definition ast_unpol_gga_c_am05 : program := Eval vm_compute in from_some (generated_fast unpol_gga_c_am05).
Lemma gen_unpol_gga_c_am05 : generated unpol_gga_c_am05 = Some ast_unpol_gga_c_am05.
Proof. apply by_fast. vm_cast_no_check (eq_refl (Some ast_unpol_gga_c_am05)). Qed.
Definition ast_pol_gga_c_bmk : program := Eval vm_compute in from_some (generated_fast pol_gga_c_bmk).
Lemma gen_pol_gga_c_bmk : generated pol_gga_c_bmk = Some ast_pol_gga_c_bmk.
Proof. apply by_fast. vm_cast_no_check (eq_refl (Some ast_pol_gga_c_bmk)). Qed.
Definition ast_unpol_gga_c_bmk : program := Eval vm_compute in from_some (generated_fast unpol_gga_c_bmk).
Lemma gen_unpol_gga_c_bmk : generated unpol_gga_c_bmk = Some ast_unpol_gga_c_bmk.
Proof. apply by_fast. vm_cast_no_check (eq_refl (Some ast_unpol_gga_c_bmk)). Qed.
Definition ast_pol_gga_c_ccdf : program := Eval vm_compute in from_some (generated_fast pol_gga_c_ccdf).
Lemma gen_pol_gga_c_ccdf : generated pol_gga_c_ccdf = Some ast_pol_gga_c_ccdf.
Proof. apply by_fast. vm_cast_no_check (eq_refl (Some ast_pol_gga_c_ccdf)). Qed.
Definition ast_unpol_gga_c_ccdf : program := Eval vm_compute in from_some (generated_fast unpol_gga_c_ccdf).
Lemma gen_unpol_gga_c_ccdf : generated unpol_gga_c_ccdf = Some ast_unpol_gga_c_ccdf.
Proof. apply by_fast. vm_cast_no_check (eq_refl (Some ast_unpol_gga_c_ccdf)). Qed.
Definition ast_pol_gga_c_chachiyo : program := Eval vm_compute in from_some (generated_fast pol_gga_c_chachiyo).
Lemma gen_pol_gga_c_chachiyo : generated pol_gga_c_chachiyo = Some ast_pol_gga_c_chachiyo.
Proof. apply by_fast. vm_cast_no_check (eq_refl (Some ast_pol_gga_c_chachiyo)). Qed.
Definition ast_unpol_gga_c_chachiyo : program := Eval vm_compute in from_some (generated_fast unpol_gga_c_chachiyo).
Lemma gen_unpol_gga_c_chachiyo : generated unpol_gga_c_chachiyo = Some ast_unpol_gga_c_chachiyo.
Proof. apply by_fast. vm_cast_no_check (eq_refl (Some ast_unpol_gga_c_chachiyo)). Qed.
Definition ast_pol_gga_c_cs1 : program := Eval vm_compute in from_some (generated_fast pol_gga_c_cs1).
Lemma gen_pol_gga_c_cs1 : generated pol_gga_c_cs1 = Some ast_pol_gga_c_cs1.
Proof. apply by_fast. vm_cast_no_check (eq_refl (Some ast_pol_gga_c_cs1)). Qed.
Definition ast_unpol_gga_c_cs1 : program := Eval vm_compute in from_some (generated_fast unpol_gga_c_cs1).
Lemma gen_unpol_gga_c_cs1 : generated unpol_gga_c_cs1 = Some ast_unpol_gga_c_cs1.
Proof. apply by_fast. vm_cast_no_check (eq_refl (Some ast_unpol_gga_c_cs1)). Qed.
Definition ast_pol_gga_c_ft97 : program := Eval vm_compute in from_some (generated_fast pol_gga_c_ft97).
Lemma gen_pol_gga_c_ft97 : generated pol_gga_c_ft97 = Some ast_pol_gga_c_ft97.
Proof. apply by_fast. vm_cast_no_check (eq_refl (Some ast_pol_gga_c_ft97)). Qed.
Definition ast_unpol_gga_c_ft97 : program := Eval vm_compute in from_some (generated_fast unpol_gga_c_ft97).
Lemma gen_unpol_gga_c_ft97 : generated unpol_gga_c_ft97 = Some ast_unpol_gga_c_ft97.
Proof. apply by_fast. vm_cast_no_check (eq_refl (Some ast_unpol_gga_c_ft97)). Qed.
Definition ast_pol_gga_c_gapc : program := Eval vm_compute in from_some (generated_fast pol_gga_c_gapc).
Lemma gen_pol_gga_c_gapc : generated pol_gga_c_gapc = Some ast_pol_gga_c_gapc.
Proof. apply by_fast. vm_cast_no_check (eq_refl (Some ast_pol_gga_c_gapc)). Qed.
Definition ast_unpol_gga_c_gapc : program := Eval vm_compute in from_some (generated_fast unpol_gga_c_gapc).
Lemma gen_unpol_gga_c_gapc : generated unpol_gga_c_gapc = Some ast_unpol_gga_c_gapc.
Proof. apply by_fast. vm_cast_no_check (eq_refl (Some ast_unpol_gga_c_gapc)). Qed.
Definition ast_pol_gga_c_gaploc : program := Eval vm_compute in from_some (generated_fast pol_gga_c_gaploc).
Lemma gen_pol_gga_c_gaploc : generated pol_gga_c_gaploc = Some ast_pol_gga_c_gaploc.
Proof. apply by_fast. vm_cast_no_check (eq_refl (Some ast_pol_gga_c_gaploc)). Qed.
Definition ast_unpol_gga_c_gaploc : program := Eval vm_compute in from_some (generated_fast unpol_gga_c_gaploc).
Lemma gen_unpol_gga_c_gaploc : generated unpol_gga_c_gaploc = Some ast_unpol_gga_c_gaploc.
Proof. apply by_fast. vm_cast_no_check (eq_refl (Some ast_unpol_gga_c_gaploc)). Qed.
Definition ast_pol_gga_c_hcth_a : program := Eval vm_compute in from_some (generated_fast pol_gga_c_hcth_a).
Lemma gen_pol_gga_c_hcth_a : generated pol_gga_c_hcth_a = Some ast_pol_gga_c_hcth_a.
Proof. apply by_fast. vm_cast_no_check (eq_refl (Some ast_pol_gga_c_hcth_a)). Qed.
Definition ast_unpol_gga_c_hcth_a : program := Eval vm_compute in from_some (generated_fast unpol_gga_c_hcth_a).
Lemma gen_unpol_gga_c_hcth_a : generated unpol_gga_c_hcth_a = Some ast_unpol_gga_c_hcth_a.
Proof. apply by_fast. vm_cast_no_check (eq_refl (Some ast_unpol_gga_c_hcth_a)). Qed.
Definition ast_pol_gga_c_lm : program := Eval vm_compute in from_some (generated_fast pol_gga_c_lm).
Lemma gen_pol_gga_c_lm : generated pol_gga_c_lm = Some ast_pol_gga_c_lm.
Proof. apply by_fast. vm_cast_no_check (eq_refl (Some ast_pol_gga_c_lm)). Qed.
Definition ast_unpol_gga_c_lm : program := Eval vm_compute in from_some (generated_fast unpol_gga_c_lm).
Lemma gen_unpol_gga_c_lm : generated unpol_gga_c_lm = Some ast_unpol_gga_c_lm.
Proof. apply by_fast. vm_cast_no_check (eq_refl (Some ast_unpol_gga_c_lm)). Qed.
Definition ast_pol_gga_c_lyp : program := Eval vm_compute in from_some (generated_fast pol_gga_c_lyp).
Lemma gen_pol_gga_c_lyp : generated pol_gga_c_lyp = Some ast_pol_gga_c_lyp.
Proof. apply by_fast. vm_cast_no_check (eq_refl (Some ast_pol_gga_c_lyp)). Qed.
Definition ast_unpol_gga_c_lyp : program := Eval vm_compute in from_some (generated_fast unpol_gga_c_lyp).
Lemma gen_unpol_gga_c_lyp : generated unpol_gga_c_lyp = Some ast_unpol_gga_c_lyp.
Proof. apply by_fast. vm_cast_no_check (eq_refl (Some ast_unpol_gga_c_lyp)). Qed.
Definition ast_pol_gga_c_lypr : program := Eval vm_compute in from_some (generated_fast pol_gga_c_lypr).
Lemma gen_pol_gga_c_lypr : generated pol_gga_c_lypr = Some ast_pol_gga_c_lypr.
Proof. apply by_fast. vm_cast_no_check (eq_refl (Some ast_pol_gga_c_lypr)). Qed.
Definition ast_unpol_gga_c_lypr : program := Eval vm_compute in from_some (generated_fast unpol_gga_c_lypr).
Lemma gen_unpol_gga_c_lypr : generated unpol_gga_c_lypr = Some ast_unpol_gga_c_lypr.
Proof. apply by_fast. vm_cast_no_check (eq_refl (Some ast_unpol_gga_c_lypr)). Qed.
Definition ast_pol_gga_c_op_b88 : program := Eval vm_compute in from_some (generated_fast pol_gga_c_op_b88).
Lemma gen_pol_gga_c_op_b88 : generated pol_gga_c_op_b88 = Some ast_pol_gga_c_op_b88.
Proof. apply by_fast. vm_cast_no_check (eq_refl (Some ast_pol_gga_c_op_b88)). Qed.
Definition ast_unpol_gga_c_op_b88 : program := Eval vm_compute in from_some (generated_fast unpol_gga_c_op_b88).
Lemma gen_unpol_gga_c_op_b88 : generated unpol_gga_c_op_b88 = Some ast_unpol_gga_c_op_b88.
Proof. apply by_fast. vm_cast_no_check (eq_refl (Some ast_unpol_gga_c_op_b88)). Qed.
Definition ast_pol_gga_c_op_g96 : program := Eval vm_compute in from_some (generated_fast pol_gga_c_op_g96).
Lemma gen_pol_gga_c_op_g96 : generated pol_gga_c_op_g96 = Some ast_pol_gga_c_op_g96.
Proof. apply by_fast. vm_cast_no_check (eq_refl (Some ast_pol_gga_c_op_g96)). Qed.
Definition ast_unpol_gga_c_op_g96 : program := Eval vm_compute in from_some (generated_fast unpol_gga_c_op_g96).
Lemma gen_unpol_gga_c_op_g96 : generated unpol_gga_c_op_g96 = Some ast_unpol_gga_c_op_g96.
Proof. apply by_fast. vm_cast_no_check (eq_refl (Some ast_unpol_gga_c_op_g96)). Qed.
Definition ast_pol_gga_c_op_pbe : program := Eval vm_compute in from_some (generated_fast pol_gga_c_op_pbe).
Lemma gen_pol_gga_c_op_pbe : generated pol_gga_c_op_pbe = Some ast_pol_gga_c_op_pbe.
Proof. apply by_fast. vm_cast_no_check (eq_refl (Some ast_pol_gga_c_op_pbe)). Qed.
Definition ast_unpol_gga_c_op_pbe : program := Eval vm_compute in from_some (generated_fast unpol_gga_c_op_pbe).
Lemma gen_unpol_gga_c_op_pbe : generated unpol_gga_c_op_pbe = Some ast_unpol_gga_c_op_pbe.
Proof. apply by_fast. vm_cast_no_check (eq_refl (Some ast_unpol_gga_c_op_pbe)). Qed.
Definition ast_pol_gga_c_op_pw91 : program := Eval vm_compute in from_some (generated_fast pol_gga_c_op_pw91).
Lemma gen_pol_gga_c_op_pw91 : generated pol_gga_c_op_pw91 = Some ast_pol_gga_c_op_pw91.
Proof. apply by_fast. vm_cast_no_check (eq_refl (Some ast_pol_gga_c_op_pw91)). Qed.
Definition ast_unpol_gga_c_op_pw91 : program := Eval vm_compute in from_some (generated_fast unpol_gga_c_op_pw91).
Lemma gen_unpol_gga_c_op_pw91 : generated unpol_gga_c_op_pw91 = Some ast_unpol_gga_c_op_pw91.
Proof. apply by_fast. vm_cast_no_check (eq_refl (Some ast_unpol_gga_c_op_pw91)). Qed.
Definition ast_pol_gga_c_op_xalpha : program := Eval vm_compute in from_some (generated_fast pol_gga_c_op_xalpha).
Lemma gen_pol_gga_c_op_xalpha : generated pol_gga_c_op_xalpha = Some ast_pol_gga_c_op_xalpha.
Proof. apply by_fast. vm_cast_no_check (eq_refl (Some ast_pol_gga_c_op_xalpha)). Qed.
Definition ast_unpol_gga_c_op_xalpha : program := Eval vm_compute in from_some (generated_fast unpol_gga_c_op_xalpha).
Lemma gen_unpol_gga_c_op_xalpha : generated unpol_gga_c_op_xalpha = Some ast_unpol_gga_c_op_xalpha.
Proof. apply by_fast. vm_cast_no_check (eq_refl (Some ast_unpol_gga_c_op_xalpha)). Qed.
Definition ast_pol_gga_c_optc : program := Eval vm_compute in from_some (generated_fast pol_gga_c_optc).
Lemma gen_pol_gga_c_optc : generated pol_gga_c_optc = Some ast_pol_gga_c_optc.
Proof. apply by_fast. vm_cast_no_check (eq_refl (Some ast_pol_gga_c_optc)). Qed.
Definition ast_unpol_gga_c_optc : program := Eval vm_compute in from_some (generated_fast unpol_gga_c_optc).
Lemma gen_unpol_gga_c_optc : generated unpol_gga_c_optc = Some ast_unpol_gga_c_optc.
Proof. apply by_fast. vm_cast_no_check (eq_refl (Some ast_unpol_gga_c_optc)). Qed.
Definition ast_pol_gga_c_p86 : program := Eval vm_compute in from_some (generated_fast pol_gga_c_p86).
Lemma gen_pol_gga_c_p86 : generated pol_gga_c_p86 = Some ast_pol_gga_c_p86.
Proof. apply by_fast. vm_cast_no_check (eq_refl (Some ast_pol_gga_c_p86)). Qed.
Definition ast_unpol_gga_c_p86 : program := Eval vm_compute in from_some (generated_fast unpol_gga_c_p86).
Lemma gen_unpol_gga_c_p86 : generated unpol_gga_c_p86 = Some ast_unpol_gga_c_p86.
Proof. apply by_fast. vm_cast_no_check (eq_refl (Some ast_unpol_gga_c_p86)). Qed.
Definition ast_pol_gga_c_p86vwn : program := Eval vm_compute in from_some (generated_fast pol_gga_c_p86vwn).
Lemma gen_pol_gga_c_p86vwn : generated pol_gga_c_p86vwn = Some ast_pol_gga_c_p86vwn.
Proof. apply by_fast. vm_cast_no_check (eq_refl (Some ast_pol_gga_c_p86vwn)). Qed.
Definition ast_unpol_gga_c_p86vwn : program := Eval vm_compute in from_some (generated_fast unpol_gga_c_p86vwn).
Lemma gen_unpol_gga_c_p86vwn : generated unpol_gga_c_p86vwn = Some ast_unpol_gga_c_p86vwn.
Proof. apply by_fast. vm_cast_no_check (eq_refl (Some ast_unpol_gga_c_p86vwn)). Qed.
Definition ast_pol_gga_c_pbe : program := Eval vm_compute in from_some (generated_fast pol_gga_c_pbe).
Lemma gen_pol_gga_c_pbe : generated pol_gga_c_pbe = Some ast_pol_gga_c_pbe.
Proof. apply by_fast. vm_cast_no_check (eq_refl (Some ast_pol_gga_c_pbe)). Qed.
Definition ast_unpol_gga_c_pbe : program := Eval vm_compute in from_some (generated_fast unpol_gga_c_pbe).
Lemma gen_unpol_gga_c_pbe : generated unpol_gga_c_pbe = Some ast_unpol_gga_c_pbe.
Proof. apply by_fast. vm_cast_no_check (eq_refl (Some ast_unpol_gga_c_pbe)). Qed.
Definition ast_pol_gga_c_pbe_vwn : program := Eval vm_compute in from_some (generated_fast pol_gga_c_pbe_vwn).
Lemma gen_pol_gga_c_pbe_vwn : generated pol_gga_c_pbe_vwn = Some ast_pol_gga_c_pbe_vwn.
Proof. apply by_fast. vm_cast_no_check (eq_refl (Some ast_pol_gga_c_pbe_vwn)). Qed.
Definition ast_unpol_gga_c_pbe_vwn : program := Eval vm_compute in from_some (generated_fast unpol_gga_c_pbe_vwn).
Lemma gen_unpol_gga_c_pbe_vwn : generated unpol_gga_c_pbe_vwn = Some ast_unpol_gga_c_pbe_vwn.
Proof. apply by_fast. vm_cast_no_check (eq_refl (Some ast_unpol_gga_c_pbe_vwn)). Qed.
Definition ast_pol_gga_c_pbeloc : program := Eval vm_compute in from_some (generated_fast pol_gga_c_pbeloc).
Lemma gen_pol_gga_c_pbeloc : generated pol_gga_c_pbeloc = Some ast_pol_gga_c_pbeloc.
Proof. apply by_fast. vm_cast_no_check (eq_refl (Some ast_pol_gga_c_pbeloc)). Qed.
Definition ast_unpol_gga_c_pbeloc : program := Eval vm_compute in from_some (generated_fast unpol_gga_c_pbeloc).
Lemma gen_unpol_gga_c_pbeloc : generated unpol_gga_c_pbeloc = Some ast_unpol_gga_c_pbeloc.
Proof. apply by_fast. vm_cast_no_check (eq_refl (Some ast_unpol_gga_c_pbeloc)). Qed.
Definition ast_pol_gga_c_pw91 : program := Eval vm_compute in from_some (generated_fast pol_gga_c_pw91).
Lemma gen_pol_gga_c_pw91 : generated pol_gga_c_pw91 = Some ast_pol_gga_c_pw91.
Proof. apply by_fast. vm_cast_no_check (eq_refl (Some ast_pol_gga_c_pw91)). Qed.
Definition ast_unpol_gga_c_pw91 : program := Eval vm_compute in from_some (generated_fast unpol_gga_c_pw91).
Lemma gen_unpol_gga_c_pw91 : generated unpol_gga_c_pw91 = Some ast_unpol_gga_c_pw91.
Proof. apply by_fast. vm_cast_no_check (eq_refl (Some ast_unpol_gga_c_pw91)). Qed.
Definition ast_pol_gga_c_q2d : program := Eval vm_compute in from_some (generated_fast pol_gga_c_q2d).
Lemma gen_pol_gga_c_q2d : generated pol_gga_c_q2d = Some ast_pol_gga_c_q2d.
Proof. apply by_fast. vm_cast_no_check (eq_refl (Some ast_pol_gga_c_q2d)). Qed.
Definition ast_unpol_gga_c_q2d : program := Eval vm_compute in from_some (generated_fast unpol_gga_c_q2d).
Lemma gen_unpol_gga_c_q2d : generated unpol_gga_c_q2d = Some ast_unpol_gga_c_q2d.
Proof. apply by_fast. vm_cast_no_check (eq_refl (Some ast_unpol_gga_c_q2d)). Qed.
Definition ast_pol_gga_c_regtpss : program := Eval vm_compute in from_some (generated_fast pol_gga_c_regtpss).
Lemma gen_pol_gga_c_regtpss : generated pol_gga_c_regtpss = Some ast_pol_gga_c_regtpss.
Proof. apply by_fast. vm_cast_no_check (eq_refl (Some ast_pol_gga_c_regtpss)). Qed.
Definition ast_unpol_gga_c_regtpss : program := Eval vm_compute in from_some (generated_fast unpol_gga_c_regtpss).
Lemma gen_unpol_gga_c_regtpss : generated unpol_gga_c_regtpss = Some ast_unpol_gga_c_regtpss.
Proof. apply by_fast. vm_cast_no_check (eq_refl (Some ast_unpol_gga_c_regtpss)). Qed.
Definition ast_pol_gga_c_revtca : program := Eval vm_compute in from_some (generated_fast pol_gga_c_revtca).
Lemma gen_pol_gga_c_revtca : generated pol_gga_c_revtca = Some ast_pol_gga_c_revtca.
Proof. apply by_fast. vm_cast_no_check (eq_refl (Some ast_pol_gga_c_revtca)). Qed.
Definition ast_unpol_gga_c_revtca : program := Eval vm_compute in from_some (generated_fast unpol_gga_c_revtca).
Lemma gen_unpol_gga_c_revtca : generated unpol_gga_c_revtca = Some ast_unpol_gga_c_revtca.
Proof. apply by_fast. vm_cast_no_check (eq_refl (Some ast_unpol_gga_c_revtca)). Qed.
Definition ast_pol_gga_c_scan_e0 : program := Eval vm_compute in from_some (generated_fast pol_gga_c_scan_e0).
Lemma gen_pol_gga_c_scan_e0 : generated pol_gga_c_scan_e0 = Some ast_pol_gga_c_scan_e0.
Proof. apply by_fast. vm_cast_no_check (eq_refl (Some ast_pol_gga_c_scan_e0)). Qed.
Definition ast_unpol_gga_c_scan_e0 : program := Eval vm_compute in from_some (generated_fast unpol_gga_c_scan_e0).
Lemma gen_unpol_gga_c_scan_e0 : generated unpol_gga_c_scan_e0 = Some ast_unpol_gga_c_scan_e0.
Proof. apply by_fast. vm_cast_no_check (eq_refl (Some ast_unpol_gga_c_scan_e0)). Qed.
Definition ast_pol_gga_c_sg4 : program := Eval vm_compute in from_some (generated_fast pol_gga_c_sg4).
Lemma gen_pol_gga_c_sg4 : generated pol_gga_c_sg4 = Some ast_pol_gga_c_sg4.
Proof. apply by_fast. vm_cast_no_check (eq_refl (Some ast_pol_gga_c_sg4)). Qed.
Definition ast_unpol_gga_c_sg4 : program := Eval vm_compute in from_some (generated_fast unpol_gga_c_sg4).
Lemma gen_unpol_gga_c_sg4 : generated unpol_gga_c_sg4 = Some ast_unpol_gga_c_sg4.
Proof. apply by_fast. vm_cast_no_check (eq_refl (Some ast_unpol_gga_c_sg4)). Qed.
Definition ast_pol_gga_c_sogga11 : program := Eval vm_compute in from_some (generated_fast pol_gga_c_sogga11).
Lemma gen_pol_gga_c_sogga11 : generated pol_gga_c_sogga11 = Some ast_pol_gga_c_sogga11.
Proof. apply by_fast. vm_cast_no_check (eq_refl (Some ast_pol_gga_c_sogga11)). Qed.
Definition ast_unpol_gga_c_sogga11 : program := Eval vm_compute in from_some (generated_fast unpol_gga_c_sogga11).
Lemma gen_unpol_gga_c_sogga11 : generated unpol_gga_c_sogga11 = Some ast_unpol_gga_c_sogga11.
Proof. apply by_fast. vm_cast_no_check (eq_refl (Some ast_unpol_gga_c_sogga11)). Qed.
Definition ast_pol_gga_c_tca : program := Eval vm_compute in from_some (generated_fast pol_gga_c_tca).
Lemma gen_pol_gga_c_tca : generated pol_gga_c_tca = Some ast_pol_gga_c_tca.
Proof. apply by_fast. vm_cast_no_check (eq_refl (Some ast_pol_gga_c_tca)). Qed.
Definition ast_unpol_gga_c_tca : program := Eval vm_compute in from_some (generated_fast unpol_gga_c_tca).
Lemma gen_unpol_gga_c_tca : generated unpol_gga_c_tca = Some ast_unpol_gga_c_tca.
Proof. apply by_fast. vm_cast_no_check (eq_refl (Some ast_unpol_gga_c_tca)). Qed.
Definition ast_pol_gga_c_w94 : program := Eval vm_compute in from_some (generated_fast pol_gga_c_w94).
Lemma gen_pol_gga_c_w94 : generated pol_gga_c_w94 = Some ast_pol_gga_c_w94.
Proof. apply by_fast. vm_cast_no_check (eq_refl (Some ast_pol_gga_c_w94)). Qed.
Definition ast_unpol_gga_c_w94 : program := Eval vm_compute in from_some (generated_fast unpol_gga_c_w94).
Lemma gen_unpol_gga_c_w94 : generated unpol_gga_c_w94 = Some ast_unpol_gga_c_w94.
Proof. apply by_fast. vm_cast_no_check (eq_refl (Some ast_unpol_gga_c_w94)). Qed.
Definition ast_pol_gga_c_wi : program := Eval vm_compute in from_some (generated_fast pol_gga_c_wi).
Lemma gen_pol_gga_c_wi : generated pol_gga_c_wi = Some ast_pol_gga_c_wi.
Proof. apply by_fast. vm_cast_no_check (eq_refl (Some ast_pol_gga_c_wi)). Qed.
Definition ast_unpol_gga_c_wi : program := Eval vm_compute in from_some (generated_fast unpol_gga_c_wi).
Lemma gen_unpol_gga_c_wi : generated unpol_gga_c_wi = Some ast_unpol_gga_c_wi.
Proof. apply by_fast. vm_cast_no_check (eq_refl (Some ast_unpol_gga_c_wi)). Qed.
Definition ast_pol_gga_c_wl : program := Eval vm_compute in from_some (generated_fast pol_gga_c_wl).
Lemma gen_pol_gga_c_wl : generated pol_gga_c_wl = Some ast_pol_gga_c_wl.
Proof. apply by_fast. vm_cast_no_check (eq_refl (Some ast_pol_gga_c_wl)). Qed.
Definition ast_unpol_gga_c_wl : program := Eval vm_compute in from_some (generated_fast unpol_gga_c_wl).
Lemma gen_unpol_gga_c_wl : generated unpol_gga_c_wl = Some ast_unpol_gga_c_wl.
Proof. apply by_fast. vm_cast_no_check (eq_refl (Some ast_unpol_gga_c_wl)). Qed.
Definition ast_pol_gga_c_zpbeint : program := Eval vm_compute in from_some (generated_fast pol_gga_c_zpbeint).
Lemma gen_pol_gga_c_zpbeint : generated pol_gga_c_zpbeint = Some ast_pol_gga_c_zpbeint.
Proof. apply by_fast. vm_cast_no_check (eq_refl (Some ast_pol_gga_c_zpbeint)). Qed.
Definition ast_unpol_gga_c_zpbeint : program := Eval vm_compute in from_some (generated_fast unpol_gga_c_zpbeint).
Lemma gen_unpol_gga_c_zpbeint : generated unpol_gga_c_zpbeint = Some ast_unpol_gga_c_zpbeint.
Proof. apply by_fast. vm_cast_no_check (eq_refl (Some ast_unpol_gga_c_zpbeint)). Qed.
Definition ast_pol_gga_c_zvpbeint : program := Eval vm_compute in from_some (generated_fast pol_gga_c_zvpbeint).
Lemma gen_pol_gga_c_zvpbeint : generated pol_gga_c_zvpbeint = Some ast_pol_gga_c_zvpbeint.
Proof. apply by_fast. vm_cast_no_check (eq_refl (Some ast_pol_gga_c_zvpbeint)). Qed.
Definition ast_unpol_gga_c_zvpbeint : program := Eval vm_compute in from_some (generated_fast unpol_gga_c_zvpbeint).
Lemma gen_unpol_gga_c_zvpbeint : generated unpol_gga_c_zvpbeint = Some ast_unpol_gga_c_zvpbeint.
Proof. apply by_fast. vm_cast_no_check (eq_refl (Some ast_unpol_gga_c_zvpbeint)). Qed.
Definition ast_pol_gga_c_zvpbeloc : program := Eval vm_compute in from_some (generated_fast pol_gga_c_zvpbeloc).
Lemma gen_pol_gga_c_zvpbeloc : generated pol_gga_c_zvpbeloc = Some ast_pol_gga_c_zvpbeloc.
Proof. apply by_fast. vm_cast_no_check (eq_refl (Some ast_pol_gga_c_zvpbeloc)). Qed.
Definition ast_unpol_gga_c_zvpbeloc : program := Eval vm_compute in from_some (generated_fast unpol_gga_c_zvpbeloc).
Lemma gen_unpol_gga_c_zvpbeloc : generated unpol_gga_c_zvpbeloc = Some ast_unpol_gga_c_zvpbeloc.
Proof. apply by_fast. vm_cast_no_check (eq_refl (Some ast_unpol_gga_c_zvpbeloc)). Qed.
Definition ast_pol_gga_k_apbe : program := Eval vm_compute in from_some (generated_fast pol_gga_k_apbe).
Lemma gen_pol_gga_k_apbe : generated pol_gga_k_apbe = Some ast_pol_gga_k_apbe.
Proof. apply by_fast. vm_cast_no_check (eq_refl (Some ast_pol_gga_k_apbe)). Qed.
Definition ast_unpol_gga_k_apbe : program := Eval vm_compute in from_some (generated_fast unpol_gga_k_apbe).
Lemma gen_unpol_gga_k_apbe : generated unpol_gga_k_apbe = Some ast_unpol_gga_k_apbe.
Proof. apply by_fast. vm_cast_no_check (eq_refl (Some ast_unpol_gga_k_apbe)). Qed.
