(* Generated by tools/gen_src.py: the generated programs of Src7.v, evaluated once. *)
From Coq Require Import List QArith.
From Verif Require Import Bytes Syntax Parser PostProcess PostFast Src.
Import ListNotations.

Definition ast_pol_mgga_x_regtpss : program := Eval vm_compute in from_some (generated_fast pol_mgga_x_regtpss).
Lemma gen_pol_mgga_x_regtpss : generated pol_mgga_x_regtpss = Some ast_pol_mgga_x_regtpss.
Proof. apply by_fast. vm_cast_no_check (eq_refl (Some ast_pol_mgga_x_regtpss)). Qed.
Definition ast_unpol_mgga_x_regtpss : program := Eval vm_compute in from_some (generated_fast unpol_mgga_x_regtpss).
Lemma gen_unpol_mgga_x_regtpss : generated unpol_mgga_x_regtpss = Some ast_unpol_mgga_x_regtpss.
Proof. apply by_fast. vm_cast_no_check (eq_refl (Some ast_unpol_mgga_x_regtpss)). Qed.
Definition ast_pol_mgga_x_revtm : program := Eval vm_compute in from_some (generated_fast pol_mgga_x_revtm).
Lemma gen_pol_mgga_x_revtm : generated pol_mgga_x_revtm = Some ast_pol_mgga_x_revtm.
Proof. apply by_fast. vm_cast_no_check (eq_refl (Some ast_pol_mgga_x_revtm)). Qed.
Definition ast_unpol_mgga_x_revtm : program := Eval vm_compute in from_some (generated_fast unpol_mgga_x_revtm).
Lemma gen_unpol_mgga_x_revtm : generated unpol_mgga_x_revtm = Some ast_unpol_mgga_x_revtm.
Proof. apply by_fast. vm_cast_no_check (eq_refl (Some ast_unpol_mgga_x_revtm)). Qed.
Definition ast_pol_mgga_x_rlda : program := Eval vm_compute in from_some (generated_fast pol_mgga_x_rlda).
Lemma gen_pol_mgga_x_rlda : generated pol_mgga_x_rlda = Some ast_pol_mgga_x_rlda.
Proof. apply by_fast. vm_cast_no_check (eq_refl (Some ast_pol_mgga_x_rlda)). Qed.
Definition ast_unpol_mgga_x_rlda : program := Eval vm_compute in from_some (generated_fast unpol_mgga_x_rlda).
Lemma gen_unpol_mgga_x_rlda : generated unpol_mgga_x_rlda = Some ast_unpol_mgga_x_rlda.
Proof. apply by_fast. vm_cast_no_check (eq_refl (Some ast_unpol_mgga_x_rlda)). Qed.
Definition ast_pol_mgga_x_rppscan : program := Eval vm_compute in from_some (generated_fast pol_mgga_x_rppscan).
Lemma gen_pol_mgga_x_rppscan : generated pol_mgga_x_rppscan = Some ast_pol_mgga_x_rppscan.
Proof. apply by_fast. vm_cast_no_check (eq_refl (Some ast_pol_mgga_x_rppscan)). Qed.
Definition ast_unpol_mgga_x_rppscan : program := Eval vm_compute in from_some (generated_fast unpol_mgga_x_rppscan).
Lemma gen_unpol_mgga_x_rppscan : generated unpol_mgga_x_rppscan = Some ast_unpol_mgga_x_rppscan.
Proof. apply by_fast. vm_cast_no_check (eq_refl (Some ast_unpol_mgga_x_rppscan)). Qed.
Definition ast_pol_mgga_x_rscan : program := Eval vm_compute in from_some (generated_fast pol_mgga_x_rscan).
Lemma gen_pol_mgga_x_rscan : generated pol_mgga_x_rscan = Some ast_pol_mgga_x_rscan.
Proof. apply by_fast. vm_cast_no_check (eq_refl (Some ast_pol_mgga_x_rscan)). Qed.
Definition ast_unpol_mgga_x_rscan : program := Eval vm_compute in from_some (generated_fast unpol_mgga_x_rscan).
Lemma gen_unpol_mgga_x_rscan : generated unpol_mgga_x_rscan = Some ast_unpol_mgga_x_rscan.
Proof. apply by_fast. vm_cast_no_check (eq_refl (Some ast_unpol_mgga_x_rscan)). Qed.
Definition ast_pol_mgga_x_rtpss : program := Eval vm_compute in from_some (generated_fast pol_mgga_x_rtpss).
Lemma gen_pol_mgga_x_rtpss : generated pol_mgga_x_rtpss = Some ast_pol_mgga_x_rtpss.
Proof. apply by_fast. vm_cast_no_check (eq_refl (Some ast_pol_mgga_x_rtpss)). Qed.
Definition ast_unpol_mgga_x_rtpss : program := Eval vm_compute in from_some (generated_fast unpol_mgga_x_rtpss).
Lemma gen_unpol_mgga_x_rtpss : generated unpol_mgga_x_rtpss = Some ast_unpol_mgga_x_rtpss.
Proof. apply by_fast. vm_cast_no_check (eq_refl (Some ast_unpol_mgga_x_rtpss)). Qed.
Definition ast_pol_mgga_x_sa_tpss : program := Eval vm_compute in from_some (generated_fast pol_mgga_x_sa_tpss).
Lemma gen_pol_mgga_x_sa_tpss : generated pol_mgga_x_sa_tpss = Some ast_pol_mgga_x_sa_tpss.
Proof. apply by_fast. vm_cast_no_check (eq_refl (Some ast_pol_mgga_x_sa_tpss)). Qed.
Definition ast_unpol_mgga_x_sa_tpss : program := Eval vm_compute in from_some (generated_fast unpol_mgga_x_sa_tpss).
Lemma gen_unpol_mgga_x_sa_tpss : generated unpol_mgga_x_sa_tpss = Some ast_unpol_mgga_x_sa_tpss.
Proof. apply by_fast. vm_cast_no_check (eq_refl (Some ast_unpol_mgga_x_sa_tpss)). Qed.
Definition ast_pol_mgga_x_scan : program := Eval vm_compute in from_some (generated_fast pol_mgga_x_scan).
Lemma gen_pol_mgga_x_scan : generated pol_mgga_x_scan = Some ast_pol_mgga_x_scan.
Proof. apply by_fast. vm_cast_no_check (eq_refl (Some ast_pol_mgga_x_scan)). Qed.
Definition ast_unpol_mgga_x_scan : program := Eval vm_compute in from_some (generated_fast unpol_mgga_x_scan).
Lemma gen_unpol_mgga_x_scan : generated unpol_mgga_x_scan = Some ast_unpol_mgga_x_scan.
Proof. apply by_fast. vm_cast_no_check (eq_refl (Some ast_unpol_mgga_x_scan)). Qed.
Definition ast_pol_mgga_x_task : program := Eval vm_compute in from_some (generated_fast pol_mgga_x_task).
Lemma gen_pol_mgga_x_task : generated pol_mgga_x_task = Some ast_pol_mgga_x_task.
Proof. apply by_fast. vm_cast_no_check (eq_refl (Some ast_pol_mgga_x_task)). Qed.
Definition ast_unpol_mgga_x_task : program := Eval vm_compute in from_some (generated_fast unpol_mgga_x_task).
Lemma gen_unpol_mgga_x_task : generated unpol_mgga_x_task = Some ast_unpol_mgga_x_task.
Proof. apply by_fast. vm_cast_no_check (eq_refl (Some ast_unpol_mgga_x_task)). Qed.
Definition ast_pol_mgga_x_tau_hcth : program := Eval vm_compute in from_some (generated_fast pol_mgga_x_tau_hcth).
Lemma gen_pol_mgga_x_tau_hcth : generated pol_mgga_x_tau_hcth = Some ast_pol_mgga_x_tau_hcth.
Proof. apply by_fast. vm_cast_no_check (eq_refl (Some ast_pol_mgga_x_tau_hcth)). Qed.
Definition ast_unpol_mgga_x_tau_hcth : program := Eval vm_compute in from_some (generated_fast unpol_mgga_x_tau_hcth).
Lemma gen_unpol_mgga_x_tau_hcth : generated unpol_mgga_x_tau_hcth = Some ast_unpol_mgga_x_tau_hcth.
Proof. apply by_fast. vm_cast_no_check (eq_refl (Some ast_unpol_mgga_x_tau_hcth)). Qed.
Definition ast_pol_mgga_x_tb09 : program := Eval vm_compute in from_some (generated_fast pol_mgga_x_tb09).
Lemma gen_pol_mgga_x_tb09 : generated pol_mgga_x_tb09 = Some ast_pol_mgga_x_tb09.
Proof. apply by_fast. vm_cast_no_check (eq_refl (Some ast_pol_mgga_x_tb09)). Qed.
Definition ast_unpol_mgga_x_tb09 : program := Eval vm_compute in from_some (generated_fast unpol_mgga_x_tb09).
Lemma gen_unpol_mgga_x_tb09 : generated unpol_mgga_x_tb09 = Some ast_unpol_mgga_x_tb09.
Proof. apply by_fast. vm_cast_no_check (eq_refl (Some ast_unpol_mgga_x_tb09)). Qed.
Definition ast_pol_mgga_x_th : program := Eval vm_compute in from_some (generated_fast pol_mgga_x_th).
Lemma gen_pol_mgga_x_th : generated pol_mgga_x_th = Some ast_pol_mgga_x_th.
Proof. apply by_fast. vm_cast_no_check (eq_refl (Some ast_pol_mgga_x_th)). Qed.
Definition ast_unpol_mgga_x_th : program := Eval vm_compute in from_some (generated_fast unpol_mgga_x_th).
Lemma gen_unpol_mgga_x_th : generated unpol_mgga_x_th = Some ast_unpol_mgga_x_th.
Proof. apply by_fast. vm_cast_no_check (eq_refl (Some ast_unpol_mgga_x_th)). Qed.
Definition ast_pol_mgga_x_tm : program := Eval vm_compute in from_some (generated_fast pol_mgga_x_tm).
Lemma gen_pol_mgga_x_tm : generated pol_mgga_x_tm = Some ast_pol_mgga_x_tm.
Proof. apply by_fast. vm_cast_no_check (eq_refl (Some ast_pol_mgga_x_tm)). Qed.
Definition ast_unpol_mgga_x_tm : program := Eval vm_compute in from_some (generated_fast unpol_mgga_x_tm).
Lemma gen_unpol_mgga_x_tm : generated unpol_mgga_x_tm = Some ast_unpol_mgga_x_tm.
Proof. apply by_fast. vm_cast_no_check (eq_refl (Some ast_unpol_mgga_x_tm)). Qed.
Definition ast_pol_mgga_x_tpss : program := Eval vm_compute in from_some (generated_fast pol_mgga_x_tpss).
Lemma gen_pol_mgga_x_tpss : generated pol_mgga_x_tpss = Some ast_pol_mgga_x_tpss.
Proof. apply by_fast. vm_cast_no_check (eq_refl (Some ast_pol_mgga_x_tpss)). Qed.
Definition ast_unpol_mgga_x_tpss : program := Eval vm_compute in from_some (generated_fast unpol_mgga_x_tpss).
Lemma gen_unpol_mgga_x_tpss : generated unpol_mgga_x_tpss = Some ast_unpol_mgga_x_tpss.
Proof. apply by_fast. vm_cast_no_check (eq_refl (Some ast_unpol_mgga_x_tpss)). Qed.
Definition ast_pol_mgga_x_vcml : program := Eval vm_compute in from_some (generated_fast pol_mgga_x_vcml).
Lemma gen_pol_mgga_x_vcml : generated pol_mgga_x_vcml = Some ast_pol_mgga_x_vcml.
Proof. apply by_fast. vm_cast_no_check (eq_refl (Some ast_pol_mgga_x_vcml)). Qed.
Definition ast_unpol_mgga_x_vcml : program := Eval vm_compute in from_some (generated_fast unpol_mgga_x_vcml).
Lemma gen_unpol_mgga_x_vcml : generated unpol_mgga_x_vcml = Some ast_unpol_mgga_x_vcml.
Proof. apply by_fast. vm_cast_no_check (eq_refl (Some ast_unpol_mgga_x_vcml)). Qed.
Definition ast_pol_mgga_x_vt84 : program := Eval vm_compute in from_some (generated_fast pol_mgga_x_vt84).
Lemma gen_pol_mgga_x_vt84 : generated pol_mgga_x_vt84 = Some ast_pol_mgga_x_vt84.
Proof. apply by_fast. vm_cast_no_check (eq_refl (Some ast_pol_mgga_x_vt84)). Qed.
Definition ast_unpol_mgga_x_vt84 : program := Eval vm_compute in from_some (generated_fast unpol_mgga_x_vt84).
Lemma gen_unpol_mgga_x_vt84 : generated unpol_mgga_x_vt84 = Some ast_unpol_mgga_x_vt84.
Proof. apply by_fast. vm_cast_no_check (eq_refl (Some ast_unpol_mgga_x_vt84)). Qed.
Definition ast_pol_mgga_xc_b97mv : program := Eval vm_compute in from_some (generated_fast pol_mgga_xc_b97mv).
Lemma gen_pol_mgga_xc_b97mv : generated pol_mgga_xc_b97mv = Some ast_pol_mgga_xc_b97mv.
Proof. apply by_fast. vm_cast_no_check (eq_refl (Some ast_pol_mgga_xc_b97mv)). Qed.
Definition ast_unpol_mgga_xc_b97mv : program := Eval vm_compute in from_some (generated_fast unpol_mgga_xc_b97mv).
Lemma gen_unpol_mgga_xc_b97mv : generated unpol_mgga_xc_b97mv = Some ast_unpol_mgga_xc_b97mv.
Proof. apply by_fast. vm_cast_no_check (eq_refl (Some ast_unpol_mgga_xc_b97mv)). Qed.
Definition ast_pol_mgga_xc_b98 : program := Eval vm_compute in from_some (generated_fast pol_mgga_xc_b98).
Lemma gen_pol_mgga_xc_b98 : generated pol_mgga_xc_b98 = Some ast_pol_mgga_xc_b98.
Proof. apply by_fast. vm_cast_no_check (eq_refl (Some ast_pol_mgga_xc_b98)). Qed.
Definition ast_unpol_mgga_xc_b98 : program := Eval vm_compute in from_some (generated_fast unpol_mgga_xc_b98).
Lemma gen_unpol_mgga_xc_b98 : generated unpol_mgga_xc_b98 = Some ast_unpol_mgga_xc_b98.
Proof. apply by_fast. vm_cast_no_check (eq_refl (Some ast_unpol_mgga_xc_b98)). Qed.
Definition ast_pol_mgga_xc_cc06 : program := Eval vm_compute in from_some (generated_fast pol_mgga_xc_cc06).
Lemma gen_pol_mgga_xc_cc06 : generated pol_mgga_xc_cc06 = Some ast_pol_mgga_xc_cc06.
Proof. apply by_fast. vm_cast_no_check (eq_refl (Some ast_pol_mgga_xc_cc06)). Qed.
Definition ast_unpol_mgga_xc_cc06 : program := Eval vm_compute in from_some (generated_fast unpol_mgga_xc_cc06).
Lemma gen_unpol_mgga_xc_cc06 : generated unpol_mgga_xc_cc06 = Some ast_unpol_mgga_xc_cc06.
Proof. apply by_fast. vm_cast_no_check (eq_refl (Some ast_unpol_mgga_xc_cc06)). Qed.
Definition ast_pol_mgga_xc_lp90 : program := Eval vm_compute in from_some (generated_fast pol_mgga_xc_lp90).
Lemma gen_pol_mgga_xc_lp90 : generated pol_mgga_xc_lp90 = Some ast_pol_mgga_xc_lp90.
Proof. apply by_fast. vm_cast_no_check (eq_refl (Some ast_pol_mgga_xc_lp90)). Qed.
Definition ast_unpol_mgga_xc_lp90 : program := Eval vm_compute in from_some (generated_fast unpol_mgga_xc_lp90).
Lemma gen_unpol_mgga_xc_lp90 : generated unpol_mgga_xc_lp90 = Some ast_unpol_mgga_xc_lp90.
Proof. apply by_fast. vm_cast_no_check (eq_refl (Some ast_unpol_mgga_xc_lp90)). Qed.
Definition ast_pol_mgga_xc_zlp : program := Eval vm_compute in from_some (generated_fast pol_mgga_xc_zlp).
Lemma gen_pol_mgga_xc_zlp : generated pol_mgga_xc_zlp = Some ast_pol_mgga_xc_zlp.
Proof. apply by_fast. vm_cast_no_check (eq_refl (Some ast_pol_mgga_xc_zlp)). Qed.
Definition ast_unpol_mgga_xc_zlp : program := Eval vm_compute in from_some (generated_fast unpol_mgga_xc_zlp).
Lemma gen_unpol_mgga_xc_zlp : generated unpol_mgga_xc_zlp = Some ast_unpol_mgga_xc_zlp.
Proof. apply by_fast. vm_cast_no_check (eq_refl (Some ast_unpol_mgga_xc_zlp)). Qed.
