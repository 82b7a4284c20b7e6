(* Generated by tools/gen_src.py: the generated programs of Src5.v, evaluated once. *)
From Coq Require Import List QArith.
From Verif Require Import Bytes Syntax Parser PostProcess PostFast Src.
Import ListNotations.

Definition ast_pol_mgga_c_ltapw : program := Eval vm_compute in from_some (generated_fast pol_mgga_c_ltapw).
Lemma gen_pol_mgga_c_ltapw : generated pol_mgga_c_ltapw = Some ast_pol_mgga_c_ltapw.
Proof. apply by_fast. vm_cast_no_check (eq_refl (Some ast_pol_mgga_c_ltapw)). Qed.
Definition ast_unpol_mgga_c_ltapw : program := Eval vm_compute in from_some (generated_fast unpol_mgga_c_ltapw).
Lemma gen_unpol_mgga_c_ltapw : generated unpol_mgga_c_ltapw = Some ast_unpol_mgga_c_ltapw.
Proof. apply by_fast. vm_cast_no_check (eq_refl (Some ast_unpol_mgga_c_ltapw)). Qed.
Definition ast_pol_mgga_c_m05 : program := Eval vm_compute in from_some (generated_fast pol_mgga_c_m05).
Lemma gen_pol_mgga_c_m05 : generated pol_mgga_c_m05 = Some ast_pol_mgga_c_m05.
Proof. apply by_fast. vm_cast_no_check (eq_refl (Some ast_pol_mgga_c_m05)). Qed.
Definition ast_unpol_mgga_c_m05 : program := Eval vm_compute in from_some (generated_fast unpol_mgga_c_m05).
Lemma gen_unpol_mgga_c_m05 : generated unpol_mgga_c_m05 = Some ast_unpol_mgga_c_m05.
Proof. apply by_fast. vm_cast_no_check (eq_refl (Some ast_unpol_mgga_c_m05)). Qed.
Definition ast_pol_mgga_c_m06l : program := Eval vm_compute in from_some (generated_fast pol_mgga_c_m06l).
Lemma gen_pol_mgga_c_m06l : generated pol_mgga_c_m06l = Some ast_pol_mgga_c_m06l.
Proof. apply by_fast. vm_cast_no_check (eq_refl (Some ast_pol_mgga_c_m06l)). Qed.
Definition ast_unpol_mgga_c_m06l : program := Eval vm_compute in from_some (generated_fast unpol_mgga_c_m06l).
Lemma gen_unpol_mgga_c_m06l : generated unpol_mgga_c_m06l = Some ast_unpol_mgga_c_m06l.
Proof. apply by_fast. vm_cast_no_check (eq_refl (Some ast_unpol_mgga_c_m06l)). Qed.
Definition ast_pol_mgga_c_m08 : program := Eval vm_compute in from_some (generated_fast pol_mgga_c_m08).
Lemma gen_pol_mgga_c_m08 : generated pol_mgga_c_m08 = Some ast_pol_mgga_c_m08.
Proof. apply by_fast. vm_cast_no_check (eq_refl (Some ast_pol_mgga_c_m08)). Qed.
Definition ast_unpol_mgga_c_m08 : program := Eval vm_compute in from_some (generated_fast unpol_mgga_c_m08).
Lemma gen_unpol_mgga_c_m08 : generated unpol_mgga_c_m08 = Some ast_unpol_mgga_c_m08.
Proof. apply by_fast. vm_cast_no_check (eq_refl (Some ast_unpol_mgga_c_m08)). Qed.
Definition ast_pol_mgga_c_pkzb : program := Eval vm_compute in from_some (generated_fast pol_mgga_c_pkzb).
Lemma gen_pol_mgga_c_pkzb : generated pol_mgga_c_pkzb = Some ast_pol_mgga_c_pkzb.
Proof. apply by_fast. vm_cast_no_check (eq_refl (Some ast_pol_mgga_c_pkzb)). Qed.
Definition ast_unpol_mgga_c_pkzb : program := Eval vm_compute in from_some (generated_fast unpol_mgga_c_pkzb).
Lemma gen_unpol_mgga_c_pkzb : generated unpol_mgga_c_pkzb = Some ast_unpol_mgga_c_pkzb.
Proof. apply by_fast. vm_cast_no_check (eq_refl (Some ast_unpol_mgga_c_pkzb)). Qed.
Definition ast_pol_mgga_c_r2scan : program := Eval vm_compute in from_some (generated_fast pol_mgga_c_r2scan).
Lemma gen_pol_mgga_c_r2scan : generated pol_mgga_c_r2scan = Some ast_pol_mgga_c_r2scan.
Proof. apply by_fast. vm_cast_no_check (eq_refl (Some ast_pol_mgga_c_r2scan)). Qed.
Definition ast_unpol_mgga_c_r2scan : program := Eval vm_compute in from_some (generated_fast unpol_mgga_c_r2scan).
Lemma gen_unpol_mgga_c_r2scan : generated unpol_mgga_c_r2scan = Some ast_unpol_mgga_c_r2scan.
Proof. apply by_fast. vm_cast_no_check (eq_refl (Some ast_unpol_mgga_c_r2scan)). Qed.
Definition ast_pol_mgga_c_revscan : program := Eval vm_compute in from_some (generated_fast pol_mgga_c_revscan).
Lemma gen_pol_mgga_c_revscan : generated pol_mgga_c_revscan = Some ast_pol_mgga_c_revscan.
Proof. apply by_fast. vm_cast_no_check (eq_refl (Some ast_pol_mgga_c_revscan)). Qed.
Definition ast_unpol_mgga_c_revscan : program := Eval vm_compute in from_some (generated_fast unpol_mgga_c_revscan).
Lemma gen_unpol_mgga_c_revscan : generated unpol_mgga_c_revscan = Some ast_unpol_mgga_c_revscan.
Proof. apply by_fast. vm_cast_no_check (eq_refl (Some ast_unpol_mgga_c_revscan)). Qed.
Definition ast_pol_mgga_c_revtpss : program := Eval vm_compute in from_some (generated_fast pol_mgga_c_revtpss).
Lemma gen_pol_mgga_c_revtpss : generated pol_mgga_c_revtpss = Some ast_pol_mgga_c_revtpss.
Proof. apply by_fast. vm_cast_no_check (eq_refl (Some ast_pol_mgga_c_revtpss)). Qed.
Definition ast_unpol_mgga_c_revtpss : program := Eval vm_compute in from_some (generated_fast unpol_mgga_c_revtpss).
Lemma gen_unpol_mgga_c_revtpss : generated unpol_mgga_c_revtpss = Some ast_unpol_mgga_c_revtpss.
Proof. apply by_fast. vm_cast_no_check (eq_refl (Some ast_unpol_mgga_c_revtpss)). Qed.
Definition ast_pol_mgga_c_rmggac : program := Eval vm_compute in from_some (generated_fast pol_mgga_c_rmggac).
Lemma gen_pol_mgga_c_rmggac : generated pol_mgga_c_rmggac = Some ast_pol_mgga_c_rmggac.
Proof. apply by_fast. vm_cast_no_check (eq_refl (Some ast_pol_mgga_c_rmggac)). Qed.
Definition ast_unpol_mgga_c_rmggac : program := Eval vm_compute in from_some (generated_fast unpol_mgga_c_rmggac).
Lemma gen_unpol_mgga_c_rmggac : generated unpol_mgga_c_rmggac = Some ast_unpol_mgga_c_rmggac.
Proof. apply by_fast. vm_cast_no_check (eq_refl (Some ast_unpol_mgga_c_rmggac)). Qed.
Definition ast_pol_mgga_c_rppscan : program := Eval vm_compute in from_some (generated_fast pol_mgga_c_rppscan).
Lemma gen_pol_mgga_c_rppscan : generated pol_mgga_c_rppscan = Some ast_pol_mgga_c_rppscan.
Proof. apply by_fast. vm_cast_no_check (eq_refl (Some ast_pol_mgga_c_rppscan)). Qed.
Definition ast_unpol_mgga_c_rppscan : program := Eval vm_compute in from_some (generated_fast unpol_mgga_c_rppscan).
Lemma gen_unpol_mgga_c_rppscan : generated unpol_mgga_c_rppscan = Some ast_unpol_mgga_c_rppscan.
Proof. apply by_fast. vm_cast_no_check (eq_refl (Some ast_unpol_mgga_c_rppscan)). Qed.
Definition ast_pol_mgga_c_rregtm : program := Eval vm_compute in from_some (generated_fast pol_mgga_c_rregtm).
Lemma gen_pol_mgga_c_rregtm : generated pol_mgga_c_rregtm = Some ast_pol_mgga_c_rregtm.
Proof. apply by_fast. vm_cast_no_check (eq_refl (Some ast_pol_mgga_c_rregtm)). Qed.
Definition ast_unpol_mgga_c_rregtm : program := Eval vm_compute in from_some (generated_fast unpol_mgga_c_rregtm).
Lemma gen_unpol_mgga_c_rregtm : generated unpol_mgga_c_rregtm = Some ast_unpol_mgga_c_rregtm.
Proof. apply by_fast. vm_cast_no_check (eq_refl (Some ast_unpol_mgga_c_rregtm)). Qed.
Definition ast_pol_mgga_c_rscan : program := Eval vm_compute in from_some (generated_fast pol_mgga_c_rscan).
Lemma gen_pol_mgga_c_rscan : generated pol_mgga_c_rscan = Some ast_pol_mgga_c_rscan.
Proof. apply by_fast. vm_cast_no_check (eq_refl (Some ast_pol_mgga_c_rscan)). Qed.
Definition ast_unpol_mgga_c_rscan : program := Eval vm_compute in from_some (generated_fast unpol_mgga_c_rscan).
Lemma gen_unpol_mgga_c_rscan : generated unpol_mgga_c_rscan = Some ast_unpol_mgga_c_rscan.
Proof. apply by_fast. vm_cast_no_check (eq_refl (Some ast_unpol_mgga_c_rscan)). Qed.
Definition ast_pol_mgga_c_scan : program := Eval vm_compute in from_some (generated_fast pol_mgga_c_scan).
Lemma gen_pol_mgga_c_scan : generated pol_mgga_c_scan = Some ast_pol_mgga_c_scan.
Proof. apply by_fast. vm_cast_no_check (eq_refl (Some ast_pol_mgga_c_scan)). Qed.
Definition ast_unpol_mgga_c_scan : program := Eval vm_compute in from_some (generated_fast unpol_mgga_c_scan).
Lemma gen_unpol_mgga_c_scan : generated unpol_mgga_c_scan = Some ast_unpol_mgga_c_scan.
Proof. apply by_fast. vm_cast_no_check (eq_refl (Some ast_unpol_mgga_c_scan)). Qed.
Definition ast_pol_mgga_c_tpss : program := Eval vm_compute in from_some (generated_fast pol_mgga_c_tpss).
Lemma gen_pol_mgga_c_tpss : generated pol_mgga_c_tpss = Some ast_pol_mgga_c_tpss.
Proof. apply by_fast. vm_cast_no_check (eq_refl (Some ast_pol_mgga_c_tpss)). Qed.
Definition ast_unpol_mgga_c_tpss : program := Eval vm_compute in from_some (generated_fast unpol_mgga_c_tpss).
Lemma gen_unpol_mgga_c_tpss : generated unpol_mgga_c_tpss = Some ast_unpol_mgga_c_tpss.
Proof. apply by_fast. vm_cast_no_check (eq_refl (Some ast_unpol_mgga_c_tpss)). Qed.
Definition ast_pol_mgga_c_tpssloc : program := Eval vm_compute in from_some (generated_fast pol_mgga_c_tpssloc).
Lemma gen_pol_mgga_c_tpssloc : generated pol_mgga_c_tpssloc = Some ast_pol_mgga_c_tpssloc.
Proof. apply by_fast. vm_cast_no_check (eq_refl (Some ast_pol_mgga_c_tpssloc)). Qed.
Definition ast_unpol_mgga_c_tpssloc : program := Eval vm_compute in from_some (generated_fast unpol_mgga_c_tpssloc).
Lemma gen_unpol_mgga_c_tpssloc : generated unpol_mgga_c_tpssloc = Some ast_unpol_mgga_c_tpssloc.
Proof. apply by_fast. vm_cast_no_check (eq_refl (Some ast_unpol_mgga_c_tpssloc)). Qed.
Definition ast_pol_mgga_c_vsxc : program := Eval vm_compute in from_some (generated_fast pol_mgga_c_vsxc).
Lemma gen_pol_mgga_c_vsxc : generated pol_mgga_c_vsxc = Some ast_pol_mgga_c_vsxc.
Proof. apply by_fast. vm_cast_no_check (eq_refl (Some ast_pol_mgga_c_vsxc)). Qed.
Definition ast_unpol_mgga_c_vsxc : program := Eval vm_compute in from_some (generated_fast unpol_mgga_c_vsxc).
Lemma gen_unpol_mgga_c_vsxc : generated unpol_mgga_c_vsxc = Some ast_unpol_mgga_c_vsxc.
Proof. apply by_fast. vm_cast_no_check (eq_refl (Some ast_unpol_mgga_c_vsxc)). Qed.
Definition ast_pol_mgga_k_csk : program := Eval vm_compute in from_some (generated_fast pol_mgga_k_csk).
Lemma gen_pol_mgga_k_csk : generated pol_mgga_k_csk = Some ast_pol_mgga_k_csk.
Proof. apply by_fast. vm_cast_no_check (eq_refl (Some ast_pol_mgga_k_csk)). Qed.
Definition ast_unpol_mgga_k_csk : program := Eval vm_compute in from_some (generated_fast unpol_mgga_k_csk).
Lemma gen_unpol_mgga_k_csk : generated unpol_mgga_k_csk = Some ast_unpol_mgga_k_csk.
Proof. apply by_fast. vm_cast_no_check (eq_refl (Some ast_unpol_mgga_k_csk)). Qed.
Definition ast_pol_mgga_k_csk_loc : program := Eval vm_compute in from_some (generated_fast pol_mgga_k_csk_loc).
Lemma gen_pol_mgga_k_csk_loc : generated pol_mgga_k_csk_loc = Some ast_pol_mgga_k_csk_loc.
Proof. apply by_fast. vm_cast_no_check (eq_refl (Some ast_pol_mgga_k_csk_loc)). Qed.
Definition ast_unpol_mgga_k_csk_loc : program := Eval vm_compute in from_some (generated_fast unpol_mgga_k_csk_loc).
Lemma gen_unpol_mgga_k_csk_loc : generated unpol_mgga_k_csk_loc = Some ast_unpol_mgga_k_csk_loc.
Proof. apply by_fast. vm_cast_no_check (eq_refl (Some ast_unpol_mgga_k_csk_loc)). Qed.
Definition ast_pol_mgga_k_gea2 : program := Eval vm_compute in from_some (generated_fast pol_mgga_k_gea2).
Lemma gen_pol_mgga_k_gea2 : generated pol_mgga_k_gea2 = Some ast_pol_mgga_k_gea2.
Proof. apply by_fast. vm_cast_no_check (eq_refl (Some ast_pol_mgga_k_gea2)). Qed.
Definition ast_unpol_mgga_k_gea2 : program := Eval vm_compute in from_some (generated_fast unpol_mgga_k_gea2).
Lemma gen_unpol_mgga_k_gea2 : generated unpol_mgga_k_gea2 = Some ast_unpol_mgga_k_gea2.
Proof. apply by_fast. vm_cast_no_check (eq_refl (Some ast_unpol_mgga_k_gea2)). Qed.
Definition ast_pol_mgga_k_gea4 : program := Eval vm_compute in from_some (generated_fast pol_mgga_k_gea4).
Lemma gen_pol_mgga_k_gea4 : generated pol_mgga_k_gea4 = Some ast_pol_mgga_k_gea4.
Proof. apply by_fast. vm_cast_no_check (eq_refl (Some ast_pol_mgga_k_gea4)). Qed.
Definition ast_unpol_mgga_k_gea4 : program := Eval vm_compute in from_some (generated_fast unpol_mgga_k_gea4).
Lemma gen_unpol_mgga_k_gea4 : generated unpol_mgga_k_gea4 = Some ast_unpol_mgga_k_gea4.
Proof. apply by_fast. vm_cast_no_check (eq_refl (Some ast_unpol_mgga_k_gea4)). Qed.
Definition ast_pol_mgga_k_lk : program := Eval vm_compute in from_some (generated_fast pol_mgga_k_lk).
Lemma gen_pol_mgga_k_lk : generated pol_mgga_k_lk = Some ast_pol_mgga_k_lk.
Proof. apply by_fast. vm_cast_no_check (eq_refl (Some ast_pol_mgga_k_lk)). Qed.
Definition ast_unpol_mgga_k_lk : program := Eval vm_compute in from_some (generated_fast unpol_mgga_k_lk).
Lemma gen_unpol_mgga_k_lk : generated unpol_mgga_k_lk = Some ast_unpol_mgga_k_lk.
Proof. apply by_fast. vm_cast_no_check (eq_refl (Some ast_unpol_mgga_k_lk)). Qed.
Definition ast_pol_mgga_k_pc07 : program := Eval vm_compute in from_some (generated_fast pol_mgga_k_pc07).
Lemma gen_pol_mgga_k_pc07 : generated pol_mgga_k_pc07 = Some ast_pol_mgga_k_pc07.
Proof. apply by_fast. vm_cast_no_check (eq_refl (Some ast_pol_mgga_k_pc07)). Qed.
Definition ast_unpol_mgga_k_pc07 : program := Eval vm_compute in from_some (generated_fast unpol_mgga_k_pc07).
Lemma gen_unpol_mgga_k_pc07 : generated unpol_mgga_k_pc07 = Some ast_unpol_mgga_k_pc07.
Proof. apply by_fast. vm_cast_no_check (eq_refl (Some ast_unpol_mgga_k_pc07)). Qed.
