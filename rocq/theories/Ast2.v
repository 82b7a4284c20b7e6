(* Generated by tools/gen_src.py: the generated programs of Src2.v, evaluated once. *)
From Coq Require Import List QArith.
From Verif Require Import Bytes Syntax Parser PostProcess PostFast Src.
Import ListNotations.

Definition ast_pol_gga_k_apbeint : program := Eval vm_compute in from_some (generated_fast pol_gga_k_apbeint).
Lemma gen_pol_gga_k_apbeint : generated pol_gga_k_apbeint = Some ast_pol_gga_k_apbeint.
Proof. apply by_fast. vm_cast_no_check (eq_refl (Some ast_pol_gga_k_apbeint)). Qed.
Definition ast_unpol_gga_k_apbeint : program := Eval vm_compute in from_some (generated_fast unpol_gga_k_apbeint).
Lemma gen_unpol_gga_k_apbeint : generated unpol_gga_k_apbeint = Some ast_unpol_gga_k_apbeint.
Proof. apply by_fast. vm_cast_no_check (eq_refl (Some ast_unpol_gga_k_apbeint)). Qed.
Definition ast_pol_gga_k_dk : program := Eval vm_compute in from_some (generated_fast pol_gga_k_dk).
Lemma gen_pol_gga_k_dk : generated pol_gga_k_dk = Some ast_pol_gga_k_dk.
Proof. apply by_fast. vm_cast_no_check (eq_refl (Some ast_pol_gga_k_dk)). Qed.
Definition ast_unpol_gga_k_dk : program := Eval vm_compute in from_some (generated_fast unpol_gga_k_dk).
Lemma gen_unpol_gga_k_dk : generated unpol_gga_k_dk = Some ast_unpol_gga_k_dk.
Proof. apply by_fast. vm_cast_no_check (eq_refl (Some ast_unpol_gga_k_dk)). Qed.
Definition ast_pol_gga_k_exp4 : program := Eval vm_compute in from_some (generated_fast pol_gga_k_exp4).
Lemma gen_pol_gga_k_exp4 : generated pol_gga_k_exp4 = Some ast_pol_gga_k_exp4.
Proof. apply by_fast. vm_cast_no_check (eq_refl (Some ast_pol_gga_k_exp4)). Qed.
Definition ast_unpol_gga_k_exp4 : program := Eval vm_compute in from_some (generated_fast unpol_gga_k_exp4).
Lemma gen_unpol_gga_k_exp4 : generated unpol_gga_k_exp4 = Some ast_unpol_gga_k_exp4.
Proof. apply by_fast. vm_cast_no_check (eq_refl (Some ast_unpol_gga_k_exp4)). Qed.
Definition ast_pol_gga_k_lc94 : program := Eval vm_compute in from_some (generated_fast pol_gga_k_lc94).
Lemma gen_pol_gga_k_lc94 : generated pol_gga_k_lc94 = Some ast_pol_gga_k_lc94.
Proof. apply by_fast. vm_cast_no_check (eq_refl (Some ast_pol_gga_k_lc94)). Qed.
Definition ast_unpol_gga_k_lc94 : program := Eval vm_compute in from_some (generated_fast unpol_gga_k_lc94).
Lemma gen_unpol_gga_k_lc94 : generated unpol_gga_k_lc94 = Some ast_unpol_gga_k_lc94.
Proof. apply by_fast. vm_cast_no_check (eq_refl (Some ast_unpol_gga_k_lc94)). Qed.
Definition ast_pol_gga_k_lgap : program := Eval vm_compute in from_some (generated_fast pol_gga_k_lgap).
Lemma gen_pol_gga_k_lgap : generated pol_gga_k_lgap = Some ast_pol_gga_k_lgap.
Proof. apply by_fast. vm_cast_no_check (eq_refl (Some ast_pol_gga_k_lgap)). Qed.
Definition ast_unpol_gga_k_lgap : program := Eval vm_compute in from_some (generated_fast unpol_gga_k_lgap).
Lemma gen_unpol_gga_k_lgap : generated unpol_gga_k_lgap = Some ast_unpol_gga_k_lgap.
Proof. apply by_fast. vm_cast_no_check (eq_refl (Some ast_unpol_gga_k_lgap)). Qed.
Definition ast_pol_gga_k_lgap_ge : program := Eval vm_compute in from_some (generated_fast pol_gga_k_lgap_ge).
Lemma gen_pol_gga_k_lgap_ge : generated pol_gga_k_lgap_ge = Some ast_pol_gga_k_lgap_ge.
Proof. apply by_fast. vm_cast_no_check (eq_refl (Some ast_pol_gga_k_lgap_ge)). Qed.
Definition ast_unpol_gga_k_lgap_ge : program := Eval vm_compute in from_some (generated_fast unpol_gga_k_lgap_ge).
Lemma gen_unpol_gga_k_lgap_ge : generated unpol_gga_k_lgap_ge = Some ast_unpol_gga_k_lgap_ge.
Proof. apply by_fast. vm_cast_no_check (eq_refl (Some ast_unpol_gga_k_lgap_ge)). Qed.
Definition ast_pol_gga_k_lkt : program := Eval vm_compute in from_some (generated_fast pol_gga_k_lkt).
Lemma gen_pol_gga_k_lkt : generated pol_gga_k_lkt = Some ast_pol_gga_k_lkt.
Proof. apply by_fast. vm_cast_no_check (eq_refl (Some ast_pol_gga_k_lkt)). Qed.
Definition ast_unpol_gga_k_lkt : program := Eval vm_compute in from_some (generated_fast unpol_gga_k_lkt).
Lemma gen_unpol_gga_k_lkt : generated unpol_gga_k_lkt = Some ast_unpol_gga_k_lkt.
Proof. apply by_fast. vm_cast_no_check (eq_refl (Some ast_unpol_gga_k_lkt)). Qed.
Definition ast_pol_gga_k_llp : program := Eval vm_compute in from_some (generated_fast pol_gga_k_llp).
Lemma gen_pol_gga_k_llp : generated pol_gga_k_llp = Some ast_pol_gga_k_llp.
Proof. apply by_fast. vm_cast_no_check (eq_refl (Some ast_pol_gga_k_llp)). Qed.
Definition ast_unpol_gga_k_llp : program := Eval vm_compute in from_some (generated_fast unpol_gga_k_llp).
Lemma gen_unpol_gga_k_llp : generated unpol_gga_k_llp = Some ast_unpol_gga_k_llp.
Proof. apply by_fast. vm_cast_no_check (eq_refl (Some ast_unpol_gga_k_llp)). Qed.
Definition ast_pol_gga_k_meyer : program := Eval vm_compute in from_some (generated_fast pol_gga_k_meyer).
Lemma gen_pol_gga_k_meyer : generated pol_gga_k_meyer = Some ast_pol_gga_k_meyer.
Proof. apply by_fast. vm_cast_no_check (eq_refl (Some ast_pol_gga_k_meyer)). Qed.
Definition ast_unpol_gga_k_meyer : program := Eval vm_compute in from_some (generated_fast unpol_gga_k_meyer).
Lemma gen_unpol_gga_k_meyer : generated unpol_gga_k_meyer = Some ast_unpol_gga_k_meyer.
Proof. apply by_fast. vm_cast_no_check (eq_refl (Some ast_unpol_gga_k_meyer)). Qed.
Definition ast_pol_gga_k_mpbe : program := Eval vm_compute in from_some (generated_fast pol_gga_k_mpbe).
Lemma gen_pol_gga_k_mpbe : generated pol_gga_k_mpbe = Some ast_pol_gga_k_mpbe.
Proof. apply by_fast. vm_cast_no_check (eq_refl (Some ast_pol_gga_k_mpbe)). Qed.
Definition ast_unpol_gga_k_mpbe : program := Eval vm_compute in from_some (generated_fast unpol_gga_k_mpbe).
Lemma gen_unpol_gga_k_mpbe : generated unpol_gga_k_mpbe = Some ast_unpol_gga_k_mpbe.
Proof. apply by_fast. vm_cast_no_check (eq_refl (Some ast_unpol_gga_k_mpbe)). Qed.
Definition ast_pol_gga_k_ol1 : program := Eval vm_compute in from_some (generated_fast pol_gga_k_ol1).
Lemma gen_pol_gga_k_ol1 : generated pol_gga_k_ol1 = Some ast_pol_gga_k_ol1.
Proof. apply by_fast. vm_cast_no_check (eq_refl (Some ast_pol_gga_k_ol1)). Qed.
Definition ast_unpol_gga_k_ol1 : program := Eval vm_compute in from_some (generated_fast unpol_gga_k_ol1).
Lemma gen_unpol_gga_k_ol1 : generated unpol_gga_k_ol1 = Some ast_unpol_gga_k_ol1.
Proof. apply by_fast. vm_cast_no_check (eq_refl (Some ast_unpol_gga_k_ol1)). Qed.
Definition ast_pol_gga_k_ol2 : program := Eval vm_compute in from_some (generated_fast pol_gga_k_ol2).
Lemma gen_pol_gga_k_ol2 : generated pol_gga_k_ol2 = Some ast_pol_gga_k_ol2.
Proof. apply by_fast. vm_cast_no_check (eq_refl (Some ast_pol_gga_k_ol2)). Qed.
Definition ast_unpol_gga_k_ol2 : program := Eval vm_compute in from_some (generated_fast unpol_gga_k_ol2).
Lemma gen_unpol_gga_k_ol2 : generated unpol_gga_k_ol2 = Some ast_unpol_gga_k_ol2.
Proof. apply by_fast. vm_cast_no_check (eq_refl (Some ast_unpol_gga_k_ol2)). Qed.
Definition ast_pol_gga_k_pearson : program := Eval vm_compute in from_some (generated_fast pol_gga_k_pearson).
Lemma gen_pol_gga_k_pearson : generated pol_gga_k_pearson = Some ast_pol_gga_k_pearson.
Proof. apply by_fast. vm_cast_no_check (eq_refl (Some ast_pol_gga_k_pearson)). Qed.
Definition ast_unpol_gga_k_pearson : program := Eval vm_compute in from_some (generated_fast unpol_gga_k_pearson).
Lemma gen_unpol_gga_k_pearson : generated unpol_gga_k_pearson = Some ast_unpol_gga_k_pearson.
Proof. apply by_fast. vm_cast_no_check (eq_refl (Some ast_unpol_gga_k_pearson)). Qed.
Definition ast_pol_gga_k_pg : program := Eval vm_compute in from_some (generated_fast pol_gga_k_pg).
Lemma gen_pol_gga_k_pg : generated pol_gga_k_pg = Some ast_pol_gga_k_pg.
Proof. apply by_fast. vm_cast_no_check (eq_refl (Some ast_pol_gga_k_pg)). Qed.
Definition ast_unpol_gga_k_pg : program := Eval vm_compute in from_some (generated_fast unpol_gga_k_pg).
Lemma gen_unpol_gga_k_pg : generated unpol_gga_k_pg = Some ast_unpol_gga_k_pg.
Proof. apply by_fast. vm_cast_no_check (eq_refl (Some ast_unpol_gga_k_pg)). Qed.
Definition ast_pol_gga_k_pw86 : program := Eval vm_compute in from_some (generated_fast pol_gga_k_pw86).
Lemma gen_pol_gga_k_pw86 : generated pol_gga_k_pw86 = Some ast_pol_gga_k_pw86.
Proof. apply by_fast. vm_cast_no_check (eq_refl (Some ast_pol_gga_k_pw86)). Qed.
Definition ast_unpol_gga_k_pw86 : program := Eval vm_compute in from_some (generated_fast unpol_gga_k_pw86).
Lemma gen_unpol_gga_k_pw86 : generated unpol_gga_k_pw86 = Some ast_unpol_gga_k_pw86.
Proof. apply by_fast. vm_cast_no_check (eq_refl (Some ast_unpol_gga_k_pw86)). Qed.
Definition ast_pol_gga_k_rational_p : program := Eval vm_compute in from_some (generated_fast pol_gga_k_rational_p).
Lemma gen_pol_gga_k_rational_p : generated pol_gga_k_rational_p = Some ast_pol_gga_k_rational_p.
Proof. apply by_fast. vm_cast_no_check (eq_refl (Some ast_pol_gga_k_rational_p)). Qed.
Definition ast_unpol_gga_k_rational_p : program := Eval vm_compute in from_some (generated_fast unpol_gga_k_rational_p).
Lemma gen_unpol_gga_k_rational_p : generated unpol_gga_k_rational_p = Some ast_unpol_gga_k_rational_p.
Proof. apply by_fast. vm_cast_no_check (eq_refl (Some ast_unpol_gga_k_rational_p)). Qed.
Definition ast_pol_gga_k_tflw : program := Eval vm_compute in from_some (generated_fast pol_gga_k_tflw).
Lemma gen_pol_gga_k_tflw : generated pol_gga_k_tflw = Some ast_pol_gga_k_tflw.
Proof. apply by_fast. vm_cast_no_check (eq_refl (Some ast_pol_gga_k_tflw)). Qed.
Definition ast_unpol_gga_k_tflw : program := Eval vm_compute in from_some (generated_fast unpol_gga_k_tflw).
Lemma gen_unpol_gga_k_tflw : generated unpol_gga_k_tflw = Some ast_unpol_gga_k_tflw.
Proof. apply by_fast. vm_cast_no_check (eq_refl (Some ast_unpol_gga_k_tflw)). Qed.
Definition ast_pol_gga_k_thakkar : program := Eval vm_compute in from_some (generated_fast pol_gga_k_thakkar).
Lemma gen_pol_gga_k_thakkar : generated pol_gga_k_thakkar = Some ast_pol_gga_k_thakkar.
Proof. apply by_fast. vm_cast_no_check (eq_refl (Some ast_pol_gga_k_thakkar)). Qed.
Definition ast_unpol_gga_k_thakkar : program := Eval vm_compute in from_some (generated_fast unpol_gga_k_thakkar).
Lemma gen_unpol_gga_k_thakkar : generated unpol_gga_k_thakkar = Some ast_unpol_gga_k_thakkar.
Proof. apply by_fast. vm_cast_no_check (eq_refl (Some ast_unpol_gga_k_thakkar)). Qed.
Definition ast_pol_gga_k_vt84f : program := Eval vm_compute in from_some (generated_fast pol_gga_k_vt84f).
Lemma gen_pol_gga_k_vt84f : generated pol_gga_k_vt84f = Some ast_pol_gga_k_vt84f.
Proof. apply by_fast. vm_cast_no_check (eq_refl (Some ast_pol_gga_k_vt84f)). Qed.
Definition ast_unpol_gga_k_vt84f : program := Eval vm_compute in from_some (generated_fast unpol_gga_k_vt84f).
Lemma gen_unpol_gga_k_vt84f : generated unpol_gga_k_vt84f = Some ast_unpol_gga_k_vt84f.
Proof. apply by_fast. vm_cast_no_check (eq_refl (Some ast_unpol_gga_k_vt84f)). Qed.
Definition ast_pol_gga_x_2d_b86 : program := Eval vm_compute in from_some (generated_fast pol_gga_x_2d_b86).
Lemma gen_pol_gga_x_2d_b86 : generated pol_gga_x_2d_b86 = Some ast_pol_gga_x_2d_b86.
Proof. apply by_fast. vm_cast_no_check (eq_refl (Some ast_pol_gga_x_2d_b86)). Qed.
Definition ast_unpol_gga_x_2d_b86 : program := Eval vm_compute in from_some (generated_fast unpol_gga_x_2d_b86).
Lemma gen_unpol_gga_x_2d_b86 : generated unpol_gga_x_2d_b86 = Some ast_unpol_gga_x_2d_b86.
Proof. apply by_fast. vm_cast_no_check (eq_refl (Some ast_unpol_gga_x_2d_b86)). Qed.
Definition ast_pol_gga_x_2d_b86_mgc : program := Eval vm_compute in from_some (generated_fast pol_gga_x_2d_b86_mgc).
Lemma gen_pol_gga_x_2d_b86_mgc : generated pol_gga_x_2d_b86_mgc = Some ast_pol_gga_x_2d_b86_mgc.
Proof. apply by_fast. vm_cast_no_check (eq_refl (Some ast_pol_gga_x_2d_b86_mgc)). Qed.
Definition ast_unpol_gga_x_2d_b86_mgc : program := Eval vm_compute in from_some (generated_fast unpol_gga_x_2d_b86_mgc).
Lemma gen_unpol_gga_x_2d_b86_mgc : generated unpol_gga_x_2d_b86_mgc = Some ast_unpol_gga_x_2d_b86_mgc.
Proof. apply by_fast. vm_cast_no_check (eq_refl (Some ast_unpol_gga_x_2d_b86_mgc)). Qed.
Definition ast_pol_gga_x_2d_b88 : program := Eval vm_compute in from_some (generated_fast pol_gga_x_2d_b88).
Lemma gen_pol_gga_x_2d_b88 : generated pol_gga_x_2d_b88 = Some ast_pol_gga_x_2d_b88.
Proof. apply by_fast. vm_cast_no_check (eq_refl (Some ast_pol_gga_x_2d_b88)). Qed.
Definition ast_unpol_gga_x_2d_b88 : program := Eval vm_compute in from_some (generated_fast unpol_gga_x_2d_b88).
Lemma gen_unpol_gga_x_2d_b88 : generated unpol_gga_x_2d_b88 = Some ast_unpol_gga_x_2d_b88.
Proof. apply by_fast. vm_cast_no_check (eq_refl (Some ast_unpol_gga_x_2d_b88)). Qed.
Definition ast_pol_gga_x_2d_pbe : program := Eval vm_compute in from_some (generated_fast pol_gga_x_2d_pbe).
Lemma gen_pol_gga_x_2d_pbe : generated pol_gga_x_2d_pbe = Some ast_pol_gga_x_2d_pbe.
Proof. apply by_fast. vm_cast_no_check (eq_refl (Some ast_pol_gga_x_2d_pbe)). Qed.
Definition ast_unpol_gga_x_2d_pbe : program := Eval vm_compute in from_some (generated_fast unpol_gga_x_2d_pbe).
Lemma gen_unpol_gga_x_2d_pbe : generated unpol_gga_x_2d_pbe = Some ast_unpol_gga_x_2d_pbe.
Proof. apply by_fast. vm_cast_no_check (eq_refl (Some ast_unpol_gga_x_2d_pbe)). Qed.
Definition ast_pol_gga_x_airy : program := Eval vm_compute in from_some (generated_fast pol_gga_x_airy).
Lemma gen_pol_gga_x_airy : generated pol_gga_x_airy = Some ast_pol_gga_x_airy.
Proof. apply by_fast. vm_cast_no_check (eq_refl (Some ast_pol_gga_x_airy)). Qed.
Definition ast_unpol_gga_x_airy : program := Eval vm_compute in from_some (generated_fast unpol_gga_x_airy).
Lemma gen_unpol_gga_x_airy : generated unpol_gga_x_airy = Some ast_unpol_gga_x_airy.
Proof. apply by_fast. vm_cast_no_check (eq_refl (Some ast_unpol_gga_x_airy)). Qed.
Definition ast_pol_gga_x_ak13 : program := Eval vm_compute in from_some (generated_fast pol_gga_x_ak13).
Lemma gen_pol_gga_x_ak13 : generated pol_gga_x_ak13 = Some ast_pol_gga_x_ak13.
Proof. apply by_fast. vm_cast_no_check (eq_refl (Some ast_pol_gga_x_ak13)). Qed.
Definition ast_unpol_gga_x_ak13 : program := Eval vm_compute in from_some (generated_fast unpol_gga_x_ak13).
Lemma gen_unpol_gga_x_ak13 : generated unpol_gga_x_ak13 = Some ast_unpol_gga_x_ak13.
Proof. apply by_fast. vm_cast_no_check (eq_refl (Some ast_unpol_gga_x_ak13)). Qed.
Definition ast_pol_gga_x_am05 : program := Eval vm_compute in from_some (generated_fast pol_gga_x_am05).
Lemma gen_pol_gga_x_am05 : generated pol_gga_x_am05 = Some ast_pol_gga_x_am05.
Proof. apply by_fast. vm_cast_no_check (eq_refl (Some ast_pol_gga_x_am05)). Qed.
Definition ast_unpol_gga_x_am05 : program := Eval vm_compute in from_some (generated_fast unpol_gga_x_am05).
Lemma gen_unpol_gga_x_am05 : generated unpol_gga_x_am05 = Some ast_unpol_gga_x_am05.
Proof. apply by_fast. vm_cast_no_check (eq_refl (Some ast_unpol_gga_x_am05)). Qed.
Definition ast_pol_gga_x_b86 : program := Eval vm_compute in from_some (generated_fast pol_gga_x_b86).
Lemma gen_pol_gga_x_b86 : generated pol_gga_x_b86 = Some ast_pol_gga_x_b86.
Proof. apply by_fast. vm_cast_no_check (eq_refl (Some ast_pol_gga_x_b86)). Qed.
Definition ast_unpol_gga_x_b86 : program := Eval vm_compute in from_some (generated_fast unpol_gga_x_b86).
Lemma gen_unpol_gga_x_b86 : generated unpol_gga_x_b86 = Some ast_unpol_gga_x_b86.
Proof. apply by_fast. vm_cast_no_check (eq_refl (Some ast_unpol_gga_x_b86)). Qed.
Definition ast_pol_gga_x_b88 : program := Eval vm_compute in from_some (generated_fast pol_gga_x_b88).
Lemma gen_pol_gga_x_b88 : generated pol_gga_x_b88 = Some ast_pol_gga_x_b88.
Proof. apply by_fast. vm_cast_no_check (eq_refl (Some ast_pol_gga_x_b88)). Qed.
Definition ast_unpol_gga_x_b88 : program := Eval vm_compute in from_some (generated_fast unpol_gga_x_b88).
Lemma gen_unpol_gga_x_b88 : generated unpol_gga_x_b88 = Some ast_unpol_gga_x_b88.
Proof. apply by_fast. vm_cast_no_check (eq_refl (Some ast_unpol_gga_x_b88)). Qed.
Definition ast_pol_gga_x_bayesian : program := Eval vm_compute in from_some (generated_fast pol_gga_x_bayesian).
Lemma gen_pol_gga_x_bayesian : generated pol_gga_x_bayesian = Some ast_pol_gga_x_bayesian.
Proof. apply by_fast. vm_cast_no_check (eq_refl (Some ast_pol_gga_x_bayesian)). Qed.
Definition ast_unpol_gga_x_bayesian : program := Eval vm_compute in from_some (generated_fast unpol_gga_x_bayesian).
Lemma gen_unpol_gga_x_bayesian : generated unpol_gga_x_bayesian = Some ast_unpol_gga_x_bayesian.
Proof. apply by_fast. vm_cast_no_check (eq_refl (Some ast_unpol_gga_x_bayesian)). Qed.
Definition ast_pol_gga_x_beefvdw : program := Eval vm_compute in from_some (generated_fast pol_gga_x_beefvdw).
Lemma gen_pol_gga_x_beefvdw : generated pol_gga_x_beefvdw = Some ast_pol_gga_x_beefvdw.
Proof. apply by_fast. vm_cast_no_check (eq_refl (Some ast_pol_gga_x_beefvdw)). Qed.
Definition ast_unpol_gga_x_beefvdw : program := Eval vm_compute in from_some (generated_fast unpol_gga_x_beefvdw).
Lemma gen_unpol_gga_x_beefvdw : generated unpol_gga_x_beefvdw = Some ast_unpol_gga_x_beefvdw.
Proof. apply by_fast. vm_cast_no_check (eq_refl (Some ast_unpol_gga_x_beefvdw)). Qed.
Definition ast_pol_gga_x_bpccac : program := Eval vm_compute in from_some (generated_fast pol_gga_x_bpccac).
Lemma gen_pol_gga_x_bpccac : generated pol_gga_x_bpccac = Some ast_pol_gga_x_bpccac.
Proof. apply by_fast. vm_cast_no_check (eq_refl (Some ast_pol_gga_x_bpccac)). Qed.
Definition ast_unpol_gga_x_bpccac : program := Eval vm_compute in from_some (generated_fast unpol_gga_x_bpccac).
Lemma gen_unpol_gga_x_bpccac : generated unpol_gga_x_bpccac = Some ast_unpol_gga_x_bpccac.
Proof. apply by_fast. vm_cast_no_check (eq_refl (Some ast_unpol_gga_x_bpccac)). Qed.
Definition ast_pol_gga_x_c09x : program := Eval vm_compute in from_some (generated_fast pol_gga_x_c09x).
Lemma gen_pol_gga_x_c09x : generated pol_gga_x_c09x = Some ast_pol_gga_x_c09x.
Proof. apply by_fast. vm_cast_no_check (eq_refl (Some ast_pol_gga_x_c09x)). Qed.
Definition ast_unpol_gga_x_c09x : program := Eval vm_compute in from_some (generated_fast unpol_gga_x_c09x).
Lemma gen_unpol_gga_x_c09x : generated unpol_gga_x_c09x = Some ast_unpol_gga_x_c09x.
Proof. apply by_fast. vm_cast_no_check (eq_refl (Some ast_unpol_gga_x_c09x)). Qed.
Definition ast_pol_gga_x_cap : program := Eval vm_compute in from_some (generated_fast pol_gga_x_cap).
Lemma gen_pol_gga_x_cap : generated pol_gga_x_cap = Some ast_pol_gga_x_cap.
Proof. apply by_fast. vm_cast_no_check (eq_refl (Some ast_pol_gga_x_cap)). Qed.
Definition ast_unpol_gga_x_cap : program := Eval vm_compute in from_some (generated_fast unpol_gga_x_cap).
Lemma gen_unpol_gga_x_cap : generated unpol_gga_x_cap = Some ast_unpol_gga_x_cap.
Proof. apply by_fast. vm_cast_no_check (eq_refl (Some ast_unpol_gga_x_cap)). Qed.
Definition ast_pol_gga_x_chachiyo : program := Eval vm_compute in from_some (generated_fast pol_gga_x_chachiyo).
Lemma gen_pol_gga_x_chachiyo : generated pol_gga_x_chachiyo = Some ast_pol_gga_x_chachiyo.
Proof. apply by_fast. vm_cast_no_check (eq_refl (Some ast_pol_gga_x_chachiyo)). Qed.
Definition ast_unpol_gga_x_chachiyo : program := Eval vm_compute in from_some (generated_fast unpol_gga_x_chachiyo).
Lemma gen_unpol_gga_x_chachiyo : generated unpol_gga_x_chachiyo = Some ast_unpol_gga_x_chachiyo.
Proof. apply by_fast. vm_cast_no_check (eq_refl (Some ast_unpol_gga_x_chachiyo)). Qed.
Definition ast_pol_gga_x_dk87 : program := Eval vm_compute in from_some (generated_fast pol_gga_x_dk87).
Lemma gen_pol_gga_x_dk87 : generated pol_gga_x_dk87 = Some ast_pol_gga_x_dk87.
Proof. apply by_fast. vm_cast_no_check (eq_refl (Some ast_pol_gga_x_dk87)). Qed.
Definition ast_unpol_gga_x_dk87 : program := Eval vm_compute in from_some (generated_fast unpol_gga_x_dk87).
Lemma gen_unpol_gga_x_dk87 : generated unpol_gga_x_dk87 = Some ast_unpol_gga_x_dk87.
Proof. apply by_fast. vm_cast_no_check (eq_refl (Some ast_unpol_gga_x_dk87)). Qed.
Definition ast_pol_gga_x_ev93 : program := Eval vm_compute in from_some (generated_fast pol_gga_x_ev93).
Lemma gen_pol_gga_x_ev93 : generated pol_gga_x_ev93 = Some ast_pol_gga_x_ev93.
Proof. apply by_fast. vm_cast_no_check (eq_refl (Some ast_pol_gga_x_ev93)). Qed.
Definition ast_unpol_gga_x_ev93 : program := Eval vm_compute in from_some (generated_fast unpol_gga_x_ev93).
Lemma gen_unpol_gga_x_ev93 : generated unpol_gga_x_ev93 = Some ast_unpol_gga_x_ev93.
Proof. apply by_fast. vm_cast_no_check (eq_refl (Some ast_unpol_gga_x_ev93)). Qed.
Definition ast_pol_gga_x_fd_lb94 : program := Eval vm_compute in from_some (generated_fast pol_gga_x_fd_lb94).
Lemma gen_pol_gga_x_fd_lb94 : generated pol_gga_x_fd_lb94 = Some ast_pol_gga_x_fd_lb94.
Proof. apply by_fast. vm_cast_no_check (eq_refl (Some ast_pol_gga_x_fd_lb94)). Qed.
Definition ast_unpol_gga_x_fd_lb94 : program := Eval vm_compute in from_some (generated_fast unpol_gga_x_fd_lb94).
Lemma gen_unpol_gga_x_fd_lb94 : generated unpol_gga_x_fd_lb94 = Some ast_unpol_gga_x_fd_lb94.
Proof. apply by_fast. vm_cast_no_check (eq_refl (Some ast_unpol_gga_x_fd_lb94)). Qed.
Definition ast_pol_gga_x_ft97 : program := Eval vm_compute in from_some (generated_fast pol_gga_x_ft97).
Lemma gen_pol_gga_x_ft97 : generated pol_gga_x_ft97 = Some ast_pol_gga_x_ft97.
Proof. apply by_fast. vm_cast_no_check (eq_refl (Some ast_pol_gga_x_ft97)). Qed.
Definition ast_unpol_gga_x_ft97 : program := Eval vm_compute in from_some (generated_fast unpol_gga_x_ft97).
Lemma gen_unpol_gga_x_ft97 : generated unpol_gga_x_ft97 = Some ast_unpol_gga_x_ft97.
Proof. apply by_fast. vm_cast_no_check (eq_refl (Some ast_unpol_gga_x_ft97)). Qed.
Definition ast_pol_gga_x_g96 : program := Eval vm_compute in from_some (generated_fast pol_gga_x_g96).
Lemma gen_pol_gga_x_g96 : generated pol_gga_x_g96 = Some ast_pol_gga_x_g96.
Proof. apply by_fast. vm_cast_no_check (eq_refl (Some ast_pol_gga_x_g96)). Qed.
Definition ast_unpol_gga_x_g96 : program := Eval vm_compute in from_some (generated_fast unpol_gga_x_g96).
Lemma gen_unpol_gga_x_g96 : generated unpol_gga_x_g96 = Some ast_unpol_gga_x_g96.
Proof. apply by_fast. vm_cast_no_check (eq_refl (Some ast_unpol_gga_x_g96)). Qed.
Definition ast_pol_gga_x_gg99 : program := Eval vm_compute in from_some (generated_fast pol_gga_x_gg99).
Lemma gen_pol_gga_x_gg99 : generated pol_gga_x_gg99 = Some ast_pol_gga_x_gg99.
Proof. apply by_fast. vm_cast_no_check (eq_refl (Some ast_pol_gga_x_gg99)). Qed.
Definition ast_unpol_gga_x_gg99 : program := Eval vm_compute in from_some (generated_fast unpol_gga_x_gg99).
Lemma gen_unpol_gga_x_gg99 : generated unpol_gga_x_gg99 = Some ast_unpol_gga_x_gg99.
Proof. apply by_fast. vm_cast_no_check (eq_refl (Some ast_unpol_gga_x_gg99)). Qed.
Definition ast_pol_gga_x_hcth_a : program := Eval vm_compute in from_some (generated_fast pol_gga_x_hcth_a).
Lemma gen_pol_gga_x_hcth_a : generated pol_gga_x_hcth_a = Some ast_pol_gga_x_hcth_a.
Proof. apply by_fast. vm_cast_no_check (eq_refl (Some ast_pol_gga_x_hcth_a)). Qed.
Definition ast_unpol_gga_x_hcth_a : program := Eval vm_compute in from_some (generated_fast unpol_gga_x_hcth_a).
Lemma gen_unpol_gga_x_hcth_a : generated unpol_gga_x_hcth_a = Some ast_unpol_gga_x_hcth_a.
Proof. apply by_fast. vm_cast_no_check (eq_refl (Some ast_unpol_gga_x_hcth_a)). Qed.
Definition ast_pol_gga_x_herman : program := Eval vm_compute in from_some (generated_fast pol_gga_x_herman).
Lemma gen_pol_gga_x_herman : generated pol_gga_x_herman = Some ast_pol_gga_x_herman.
Proof. apply by_fast. vm_cast_no_check (eq_refl (Some ast_pol_gga_x_herman)). Qed.
Definition ast_unpol_gga_x_herman : program := Eval vm_compute in from_some (generated_fast unpol_gga_x_herman).
Lemma gen_unpol_gga_x_herman : generated unpol_gga_x_herman = Some ast_unpol_gga_x_herman.
Proof. apply by_fast. vm_cast_no_check (eq_refl (Some ast_unpol_gga_x_herman)). Qed.
Definition ast_pol_gga_x_hjs : program := Eval vm_compute in from_some (generated_fast pol_gga_x_hjs).
Lemma gen_pol_gga_x_hjs : generated pol_gga_x_hjs = Some ast_pol_gga_x_hjs.
Proof. apply by_fast. vm_cast_no_check (eq_refl (Some ast_pol_gga_x_hjs)). Qed.
Definition ast_unpol_gga_x_hjs : program := Eval vm_compute in from_some (generated_fast unpol_gga_x_hjs).
Lemma gen_unpol_gga_x_hjs : generated unpol_gga_x_hjs = Some ast_unpol_gga_x_hjs.
Proof. apply by_fast. vm_cast_no_check (eq_refl (Some ast_unpol_gga_x_hjs)). Qed.
Definition ast_pol_gga_x_hjs_b88_v2 : program := Eval vm_compute in from_some (generated_fast pol_gga_x_hjs_b88_v2).
Lemma gen_pol_gga_x_hjs_b88_v2 : generated pol_gga_x_hjs_b88_v2 = Some ast_pol_gga_x_hjs_b88_v2.
Proof. apply by_fast. vm_cast_no_check (eq_refl (Some ast_pol_gga_x_hjs_b88_v2)). Qed.
Definition ast_unpol_gga_x_hjs_b88_v2 : program := Eval vm_compute in from_some (generated_fast unpol_gga_x_hjs_b88_v2).
Lemma gen_unpol_gga_x_hjs_b88_v2 : generated unpol_gga_x_hjs_b88_v2 = Some ast_unpol_gga_x_hjs_b88_v2.
Proof. apply by_fast. vm_cast_no_check (eq_refl (Some ast_unpol_gga_x_hjs_b88_v2)). Qed.
Definition ast_pol_gga_x_htbs : program := Eval vm_compute in from_some (generated_fast pol_gga_x_htbs).
Lemma gen_pol_gga_x_htbs : generated pol_gga_x_htbs = Some ast_pol_gga_x_htbs.
Proof. apply by_fast. vm_cast_no_check (eq_refl (Some ast_pol_gga_x_htbs)). Qed.
Definition ast_unpol_gga_x_htbs : program := Eval vm_compute in from_some (generated_fast unpol_gga_x_htbs).
Lemma gen_unpol_gga_x_htbs : generated unpol_gga_x_htbs = Some ast_unpol_gga_x_htbs.
Proof. apply by_fast. vm_cast_no_check (eq_refl (Some ast_unpol_gga_x_htbs)). Qed.
Definition ast_pol_gga_x_ityh : program := Eval vm_compute in from_some (generated_fast pol_gga_x_ityh).
Lemma gen_pol_gga_x_ityh : generated pol_gga_x_ityh = Some ast_pol_gga_x_ityh.
Proof. apply by_fast. vm_cast_no_check (eq_refl (Some ast_pol_gga_x_ityh)). Qed.
Definition ast_unpol_gga_x_ityh : program := Eval vm_compute in from_some (generated_fast unpol_gga_x_ityh).
Lemma gen_unpol_gga_x_ityh : generated unpol_gga_x_ityh = Some ast_unpol_gga_x_ityh.
Proof. apply by_fast. vm_cast_no_check (eq_refl (Some ast_unpol_gga_x_ityh)). Qed.
Definition ast_pol_gga_x_ityh_optx : program := Eval vm_compute in from_some (generated_fast pol_gga_x_ityh_optx).
Lemma gen_pol_gga_x_ityh_optx : generated pol_gga_x_ityh_optx = Some ast_pol_gga_x_ityh_optx.
Proof. apply by_fast. vm_cast_no_check (eq_refl (Some ast_pol_gga_x_ityh_optx)). Qed.
Definition ast_unpol_gga_x_ityh_optx : program := Eval vm_compute in from_some (generated_fast unpol_gga_x_ityh_optx).
Lemma gen_unpol_gga_x_ityh_optx : generated unpol_gga_x_ityh_optx = Some ast_unpol_gga_x_ityh_optx.
Proof. apply by_fast. vm_cast_no_check (eq_refl (Some ast_unpol_gga_x_ityh_optx)). Qed.
Definition ast_pol_gga_x_ityh_pbe : program := Eval vm_compute in from_some (generated_fast pol_gga_x_ityh_pbe).
Lemma gen_pol_gga_x_ityh_pbe : generated pol_gga_x_ityh_pbe = Some ast_pol_gga_x_ityh_pbe.
Proof. apply by_fast. vm_cast_no_check (eq_refl (Some ast_pol_gga_x_ityh_pbe)). Qed.
Definition ast_unpol_gga_x_ityh_pbe : program := Eval vm_compute in from_some (generated_fast unpol_gga_x_ityh_pbe).
Lemma gen_unpol_gga_x_ityh_pbe : generated unpol_gga_x_ityh_pbe = Some ast_unpol_gga_x_ityh_pbe.
Proof. apply by_fast. vm_cast_no_check (eq_refl (Some ast_unpol_gga_x_ityh_pbe)). Qed.
Definition ast_pol_gga_x_kt : program := Eval vm_compute in from_some (generated_fast pol_gga_x_kt).
Lemma gen_pol_gga_x_kt : generated pol_gga_x_kt = Some ast_pol_gga_x_kt.
Proof. apply by_fast. vm_cast_no_check (eq_refl (Some ast_pol_gga_x_kt)). Qed.
Definition ast_unpol_gga_x_kt : program := Eval vm_compute in from_some (generated_fast unpol_gga_x_kt).
Lemma gen_unpol_gga_x_kt : generated unpol_gga_x_kt = Some ast_unpol_gga_x_kt.
Proof. apply by_fast. vm_cast_no_check (eq_refl (Some ast_unpol_gga_x_kt)). Qed.
Definition ast_pol_gga_x_lag : program := Eval vm_compute in from_some (generated_fast pol_gga_x_lag).
Lemma gen_pol_gga_x_lag : generated pol_gga_x_lag = Some ast_pol_gga_x_lag.
Proof. apply by_fast. vm_cast_no_check (eq_refl (Some ast_pol_gga_x_lag)). Qed.
Definition ast_unpol_gga_x_lag : program := Eval vm_compute in from_some (generated_fast unpol_gga_x_lag).
Lemma gen_unpol_gga_x_lag : generated unpol_gga_x_lag = Some ast_unpol_gga_x_lag.
Proof. apply by_fast. vm_cast_no_check (eq_refl (Some ast_unpol_gga_x_lag)). Qed.
Definition ast_pol_gga_x_lb : program := Eval vm_compute in from_some (generated_fast pol_gga_x_lb).
Lemma gen_pol_gga_x_lb : generated pol_gga_x_lb = Some ast_pol_gga_x_lb.
Proof. apply by_fast. vm_cast_no_check (eq_refl (Some ast_pol_gga_x_lb)). Qed.
Definition ast_unpol_gga_x_lb : program := Eval vm_compute in from_some (generated_fast unpol_gga_x_lb).
Lemma gen_unpol_gga_x_lb : generated unpol_gga_x_lb = Some ast_unpol_gga_x_lb.
Proof. apply by_fast. vm_cast_no_check (eq_refl (Some ast_unpol_gga_x_lb)). Qed.
Definition ast_pol_gga_x_lg93 : program := Eval vm_compute in from_some (generated_fast pol_gga_x_lg93).
Lemma gen_pol_gga_x_lg93 : generated pol_gga_x_lg93 = Some ast_pol_gga_x_lg93.
Proof. apply by_fast. vm_cast_no_check (eq_refl (Some ast_pol_gga_x_lg93)). Qed.
Definition ast_unpol_gga_x_lg93 : program := Eval vm_compute in from_some (generated_fast unpol_gga_x_lg93).
Lemma gen_unpol_gga_x_lg93 : generated unpol_gga_x_lg93 = Some ast_unpol_gga_x_lg93.
Proof. apply by_fast. vm_cast_no_check (eq_refl (Some ast_unpol_gga_x_lg93)). Qed.
Definition ast_pol_gga_x_lspbe : program := Eval vm_compute in from_some (generated_fast pol_gga_x_lspbe).
Lemma gen_pol_gga_x_lspbe : generated pol_gga_x_lspbe = Some ast_pol_gga_x_lspbe.
Proof. apply by_fast. vm_cast_no_check (eq_refl (Some ast_pol_gga_x_lspbe)). Qed.
Definition ast_unpol_gga_x_lspbe : program := Eval vm_compute in from_some (generated_fast unpol_gga_x_lspbe).
Lemma gen_unpol_gga_x_lspbe : generated unpol_gga_x_lspbe = Some ast_unpol_gga_x_lspbe.
Proof. apply by_fast. vm_cast_no_check (eq_refl (Some ast_unpol_gga_x_lspbe)). Qed.
Definition ast_pol_gga_x_lsrpbe : program := Eval vm_compute in from_some (generated_fast pol_gga_x_lsrpbe).
Lemma gen_pol_gga_x_lsrpbe : generated pol_gga_x_lsrpbe = Some ast_pol_gga_x_lsrpbe.
Proof. apply by_fast. vm_cast_no_check (eq_refl (Some ast_pol_gga_x_lsrpbe)). Qed.
Definition ast_unpol_gga_x_lsrpbe : program := Eval vm_compute in from_some (generated_fast unpol_gga_x_lsrpbe).
Lemma gen_unpol_gga_x_lsrpbe : generated unpol_gga_x_lsrpbe = Some ast_unpol_gga_x_lsrpbe.
Proof. apply by_fast. vm_cast_no_check (eq_refl (Some ast_unpol_gga_x_lsrpbe)). Qed.
Definition ast_pol_gga_x_lv_rpw86 : program := Eval vm_compute in from_some (generated_fast pol_gga_x_lv_rpw86).
Lemma gen_pol_gga_x_lv_rpw86 : generated pol_gga_x_lv_rpw86 = Some ast_pol_gga_x_lv_rpw86.
Proof. apply by_fast. vm_cast_no_check (eq_refl (Some ast_pol_gga_x_lv_rpw86)). Qed.
Definition ast_unpol_gga_x_lv_rpw86 : program := Eval vm_compute in from_some (generated_fast unpol_gga_x_lv_rpw86).
Lemma gen_unpol_gga_x_lv_rpw86 : generated unpol_gga_x_lv_rpw86 = Some ast_unpol_gga_x_lv_rpw86.
Proof. apply by_fast. vm_cast_no_check (eq_refl (Some ast_unpol_gga_x_lv_rpw86)). Qed.
Definition ast_pol_gga_x_mpbe : program := Eval vm_compute in from_some (generated_fast pol_gga_x_mpbe).
Lemma gen_pol_gga_x_mpbe : generated pol_gga_x_mpbe = Some ast_pol_gga_x_mpbe.
Proof. apply by_fast. vm_cast_no_check (eq_refl (Some ast_pol_gga_x_mpbe)). Qed.
Definition ast_unpol_gga_x_mpbe : program := Eval vm_compute in from_some (generated_fast unpol_gga_x_mpbe).
Lemma gen_unpol_gga_x_mpbe : generated unpol_gga_x_mpbe = Some ast_unpol_gga_x_mpbe.
Proof. apply by_fast. vm_cast_no_check (eq_refl (Some ast_unpol_gga_x_mpbe)). Qed.
Definition ast_pol_gga_x_n12 : program := Eval vm_compute in from_some (generated_fast pol_gga_x_n12).
Lemma gen_pol_gga_x_n12 : generated pol_gga_x_n12 = Some ast_pol_gga_x_n12.
Proof. apply by_fast. vm_cast_no_check (eq_refl (Some ast_pol_gga_x_n12)). Qed.
Definition ast_unpol_gga_x_n12 : program := Eval vm_compute in from_some (generated_fast unpol_gga_x_n12).
Lemma gen_unpol_gga_x_n12 : generated unpol_gga_x_n12 = Some ast_unpol_gga_x_n12.
Proof. apply by_fast. vm_cast_no_check (eq_refl (Some ast_unpol_gga_x_n12)). Qed.
