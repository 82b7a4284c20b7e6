(* Generated by tools/gen_src.py: the generated programs of Src6.v, evaluated once. *)
From Coq Require Import List QArith.
From Verif Require Import Bytes Syntax Parser PostProcess PostFast Src.
Import ListNotations.

Definition ast_pol_mgga_k_pgslb : program := Eval vm_compute in from_some (generated_fast pol_mgga_k_pgslb).
Lemma gen_pol_mgga_k_pgslb : generated pol_mgga_k_pgslb = Some ast_pol_mgga_k_pgslb.
Proof. apply by_fast. vm_cast_no_check (eq_refl (Some ast_pol_mgga_k_pgslb)). Qed.
Definition ast_unpol_mgga_k_pgslb : program := Eval vm_compute in from_some (generated_fast unpol_mgga_k_pgslb).
Lemma gen_unpol_mgga_k_pgslb : generated unpol_mgga_k_pgslb = Some ast_unpol_mgga_k_pgslb.
Proof. apply by_fast. vm_cast_no_check (eq_refl (Some ast_unpol_mgga_k_pgslb)). Qed.
Definition ast_pol_mgga_k_rda : program := Eval vm_compute in from_some (generated_fast pol_mgga_k_rda).
Lemma gen_pol_mgga_k_rda : generated pol_mgga_k_rda = Some ast_pol_mgga_k_rda.
Proof. apply by_fast. vm_cast_no_check (eq_refl (Some ast_pol_mgga_k_rda)). Qed.
Definition ast_unpol_mgga_k_rda : program := Eval vm_compute in from_some (generated_fast unpol_mgga_k_rda).
Lemma gen_unpol_mgga_k_rda : generated unpol_mgga_k_rda = Some ast_unpol_mgga_k_rda.
Proof. apply by_fast. vm_cast_no_check (eq_refl (Some ast_unpol_mgga_k_rda)). Qed.
Definition ast_pol_mgga_x_2d_js17 : program := Eval vm_compute in from_some (generated_fast pol_mgga_x_2d_js17).
Lemma gen_pol_mgga_x_2d_js17 : generated pol_mgga_x_2d_js17 = Some ast_pol_mgga_x_2d_js17.
Proof. apply by_fast. vm_cast_no_check (eq_refl (Some ast_pol_mgga_x_2d_js17)). Qed.
Definition ast_unpol_mgga_x_2d_js17 : program := Eval vm_compute in from_some (generated_fast unpol_mgga_x_2d_js17).
Lemma gen_unpol_mgga_x_2d_js17 : generated unpol_mgga_x_2d_js17 = Some ast_unpol_mgga_x_2d_js17.
Proof. apply by_fast. vm_cast_no_check (eq_refl (Some ast_unpol_mgga_x_2d_js17)). Qed.
Definition ast_pol_mgga_x_2d_prhg07 : program := Eval vm_compute in from_some (generated_fast pol_mgga_x_2d_prhg07).
Lemma gen_pol_mgga_x_2d_prhg07 : generated pol_mgga_x_2d_prhg07 = Some ast_pol_mgga_x_2d_prhg07.
Proof. apply by_fast. vm_cast_no_check (eq_refl (Some ast_pol_mgga_x_2d_prhg07)). Qed.
Definition ast_unpol_mgga_x_2d_prhg07 : program := Eval vm_compute in from_some (generated_fast unpol_mgga_x_2d_prhg07).
Lemma gen_unpol_mgga_x_2d_prhg07 : generated unpol_mgga_x_2d_prhg07 = Some ast_unpol_mgga_x_2d_prhg07.
Proof. apply by_fast. vm_cast_no_check (eq_refl (Some ast_unpol_mgga_x_2d_prhg07)). Qed.
Definition ast_pol_mgga_x_2d_prp10 : program := Eval vm_compute in from_some (generated_fast pol_mgga_x_2d_prp10).
Lemma gen_pol_mgga_x_2d_prp10 : generated pol_mgga_x_2d_prp10 = Some ast_pol_mgga_x_2d_prp10.
Proof. apply by_fast. vm_cast_no_check (eq_refl (Some ast_pol_mgga_x_2d_prp10)). Qed.
Definition ast_unpol_mgga_x_2d_prp10 : program := Eval vm_compute in from_some (generated_fast unpol_mgga_x_2d_prp10).
Lemma gen_unpol_mgga_x_2d_prp10 : generated unpol_mgga_x_2d_prp10 = Some ast_unpol_mgga_x_2d_prp10.
Proof. apply by_fast. vm_cast_no_check (eq_refl (Some ast_unpol_mgga_x_2d_prp10)). Qed.
Definition ast_pol_mgga_x_br89 : program := Eval vm_compute in from_some (generated_fast pol_mgga_x_br89).
Lemma gen_pol_mgga_x_br89 : generated pol_mgga_x_br89 = Some ast_pol_mgga_x_br89.
Proof. apply by_fast. vm_cast_no_check (eq_refl (Some ast_pol_mgga_x_br89)). Qed.
Definition ast_unpol_mgga_x_br89 : program := Eval vm_compute in from_some (generated_fast unpol_mgga_x_br89).
Lemma gen_unpol_mgga_x_br89 : generated unpol_mgga_x_br89 = Some ast_unpol_mgga_x_br89.
Proof. apply by_fast. vm_cast_no_check (eq_refl (Some ast_unpol_mgga_x_br89)). Qed.
Definition ast_pol_mgga_x_br89_explicit : program := Eval vm_compute in from_some (generated_fast pol_mgga_x_br89_explicit).
Lemma gen_pol_mgga_x_br89_explicit : generated pol_mgga_x_br89_explicit = Some ast_pol_mgga_x_br89_explicit.
Proof. apply by_fast. vm_cast_no_check (eq_refl (Some ast_pol_mgga_x_br89_explicit)). Qed.
Definition ast_unpol_mgga_x_br89_explicit : program := Eval vm_compute in from_some (generated_fast unpol_mgga_x_br89_explicit).
Lemma gen_unpol_mgga_x_br89_explicit : generated unpol_mgga_x_br89_explicit = Some ast_unpol_mgga_x_br89_explicit.
Proof. apply by_fast. vm_cast_no_check (eq_refl (Some ast_unpol_mgga_x_br89_explicit)). Qed.
Definition ast_pol_mgga_x_edmgga : program := Eval vm_compute in from_some (generated_fast pol_mgga_x_edmgga).
Lemma gen_pol_mgga_x_edmgga : generated pol_mgga_x_edmgga = Some ast_pol_mgga_x_edmgga.
Proof. apply by_fast. vm_cast_no_check (eq_refl (Some ast_pol_mgga_x_edmgga)). Qed.
Definition ast_unpol_mgga_x_edmgga : program := Eval vm_compute in from_some (generated_fast unpol_mgga_x_edmgga).
Lemma gen_unpol_mgga_x_edmgga : generated unpol_mgga_x_edmgga = Some ast_unpol_mgga_x_edmgga.
Proof. apply by_fast. vm_cast_no_check (eq_refl (Some ast_unpol_mgga_x_edmgga)). Qed.
Definition ast_pol_mgga_x_ft98 : program := Eval vm_compute in from_some (generated_fast pol_mgga_x_ft98).
Lemma gen_pol_mgga_x_ft98 : generated pol_mgga_x_ft98 = Some ast_pol_mgga_x_ft98.
Proof. apply by_fast. vm_cast_no_check (eq_refl (Some ast_pol_mgga_x_ft98)). Qed.
Definition ast_unpol_mgga_x_ft98 : program := Eval vm_compute in from_some (generated_fast unpol_mgga_x_ft98).
Lemma gen_unpol_mgga_x_ft98 : generated unpol_mgga_x_ft98 = Some ast_unpol_mgga_x_ft98.
Proof. apply by_fast. vm_cast_no_check (eq_refl (Some ast_unpol_mgga_x_ft98)). Qed.
Definition ast_pol_mgga_x_gdme : program := Eval vm_compute in from_some (generated_fast pol_mgga_x_gdme).
Lemma gen_pol_mgga_x_gdme : generated pol_mgga_x_gdme = Some ast_pol_mgga_x_gdme.
Proof. apply by_fast. vm_cast_no_check (eq_refl (Some ast_pol_mgga_x_gdme)). Qed.
Definition ast_unpol_mgga_x_gdme : program := Eval vm_compute in from_some (generated_fast unpol_mgga_x_gdme).
Lemma gen_unpol_mgga_x_gdme : generated unpol_mgga_x_gdme = Some ast_unpol_mgga_x_gdme.
Proof. apply by_fast. vm_cast_no_check (eq_refl (Some ast_unpol_mgga_x_gdme)). Qed.
Definition ast_pol_mgga_x_gvt4 : program := Eval vm_compute in from_some (generated_fast pol_mgga_x_gvt4).
Lemma gen_pol_mgga_x_gvt4 : generated pol_mgga_x_gvt4 = Some ast_pol_mgga_x_gvt4.
Proof. apply by_fast. vm_cast_no_check (eq_refl (Some ast_pol_mgga_x_gvt4)). Qed.
Definition ast_unpol_mgga_x_gvt4 : program := Eval vm_compute in from_some (generated_fast unpol_mgga_x_gvt4).
Lemma gen_unpol_mgga_x_gvt4 : generated unpol_mgga_x_gvt4 = Some ast_unpol_mgga_x_gvt4.
Proof. apply by_fast. vm_cast_no_check (eq_refl (Some ast_unpol_mgga_x_gvt4)). Qed.
Definition ast_pol_mgga_x_gx : program := Eval vm_compute in from_some (generated_fast pol_mgga_x_gx).
Lemma gen_pol_mgga_x_gx : generated pol_mgga_x_gx = Some ast_pol_mgga_x_gx.
Proof. apply by_fast. vm_cast_no_check (eq_refl (Some ast_pol_mgga_x_gx)). Qed.
Definition ast_unpol_mgga_x_gx : program := Eval vm_compute in from_some (generated_fast unpol_mgga_x_gx).
Lemma gen_unpol_mgga_x_gx : generated unpol_mgga_x_gx = Some ast_unpol_mgga_x_gx.
Proof. apply by_fast. vm_cast_no_check (eq_refl (Some ast_unpol_mgga_x_gx)). Qed.
Definition ast_pol_mgga_x_jk : program := Eval vm_compute in from_some (generated_fast pol_mgga_x_jk).
Lemma gen_pol_mgga_x_jk : generated pol_mgga_x_jk = Some ast_pol_mgga_x_jk.
Proof. apply by_fast. vm_cast_no_check (eq_refl (Some ast_pol_mgga_x_jk)). Qed.
Definition ast_unpol_mgga_x_jk : program := Eval vm_compute in from_some (generated_fast unpol_mgga_x_jk).
Lemma gen_unpol_mgga_x_jk : generated unpol_mgga_x_jk = Some ast_unpol_mgga_x_jk.
Proof. apply by_fast. vm_cast_no_check (eq_refl (Some ast_unpol_mgga_x_jk)). Qed.
Definition ast_pol_mgga_x_lta : program := Eval vm_compute in from_some (generated_fast pol_mgga_x_lta).
Lemma gen_pol_mgga_x_lta : generated pol_mgga_x_lta = Some ast_pol_mgga_x_lta.
Proof. apply by_fast. vm_cast_no_check (eq_refl (Some ast_pol_mgga_x_lta)). Qed.
Definition ast_unpol_mgga_x_lta : program := Eval vm_compute in from_some (generated_fast unpol_mgga_x_lta).
Lemma gen_unpol_mgga_x_lta : generated unpol_mgga_x_lta = Some ast_unpol_mgga_x_lta.
Proof. apply by_fast. vm_cast_no_check (eq_refl (Some ast_unpol_mgga_x_lta)). Qed.
Definition ast_pol_mgga_x_m06l : program := Eval vm_compute in from_some (generated_fast pol_mgga_x_m06l).
Lemma gen_pol_mgga_x_m06l : generated pol_mgga_x_m06l = Some ast_pol_mgga_x_m06l.
Proof. apply by_fast. vm_cast_no_check (eq_refl (Some ast_pol_mgga_x_m06l)). Qed.
Definition ast_unpol_mgga_x_m06l : program := Eval vm_compute in from_some (generated_fast unpol_mgga_x_m06l).
Lemma gen_unpol_mgga_x_m06l : generated unpol_mgga_x_m06l = Some ast_unpol_mgga_x_m06l.
Proof. apply by_fast. vm_cast_no_check (eq_refl (Some ast_unpol_mgga_x_m06l)). Qed.
Definition ast_pol_mgga_x_m08 : program := Eval vm_compute in from_some (generated_fast pol_mgga_x_m08).
Lemma gen_pol_mgga_x_m08 : generated pol_mgga_x_m08 = Some ast_pol_mgga_x_m08.
Proof. apply by_fast. vm_cast_no_check (eq_refl (Some ast_pol_mgga_x_m08)). Qed.
Definition ast_unpol_mgga_x_m08 : program := Eval vm_compute in from_some (generated_fast unpol_mgga_x_m08).
Lemma gen_unpol_mgga_x_m08 : generated unpol_mgga_x_m08 = Some ast_unpol_mgga_x_m08.
Proof. apply by_fast. vm_cast_no_check (eq_refl (Some ast_unpol_mgga_x_m08)). Qed.
Definition ast_pol_mgga_x_m11 : program := Eval vm_compute in from_some (generated_fast pol_mgga_x_m11).
Lemma gen_pol_mgga_x_m11 : generated pol_mgga_x_m11 = Some ast_pol_mgga_x_m11.
Proof. apply by_fast. vm_cast_no_check (eq_refl (Some ast_pol_mgga_x_m11)). Qed.
Definition ast_unpol_mgga_x_m11 : program := Eval vm_compute in from_some (generated_fast unpol_mgga_x_m11).
Lemma gen_unpol_mgga_x_m11 : generated unpol_mgga_x_m11 = Some ast_unpol_mgga_x_m11.
Proof. apply by_fast. vm_cast_no_check (eq_refl (Some ast_unpol_mgga_x_m11)). Qed.
Definition ast_pol_mgga_x_m11_l : program := Eval vm_compute in from_some (generated_fast pol_mgga_x_m11_l).
Lemma gen_pol_mgga_x_m11_l : generated pol_mgga_x_m11_l = Some ast_pol_mgga_x_m11_l.
Proof. apply by_fast. vm_cast_no_check (eq_refl (Some ast_pol_mgga_x_m11_l)). Qed.
Definition ast_unpol_mgga_x_m11_l : program := Eval vm_compute in from_some (generated_fast unpol_mgga_x_m11_l).
Lemma gen_unpol_mgga_x_m11_l : generated unpol_mgga_x_m11_l = Some ast_unpol_mgga_x_m11_l.
Proof. apply by_fast. vm_cast_no_check (eq_refl (Some ast_unpol_mgga_x_m11_l)). Qed.
Definition ast_pol_mgga_x_mbeef : program := Eval vm_compute in from_some (generated_fast pol_mgga_x_mbeef).
Lemma gen_pol_mgga_x_mbeef : generated pol_mgga_x_mbeef = Some ast_pol_mgga_x_mbeef.
Proof. apply by_fast. vm_cast_no_check (eq_refl (Some ast_pol_mgga_x_mbeef)). Qed.
Definition ast_unpol_mgga_x_mbeef : program := Eval vm_compute in from_some (generated_fast unpol_mgga_x_mbeef).
Lemma gen_unpol_mgga_x_mbeef : generated unpol_mgga_x_mbeef = Some ast_unpol_mgga_x_mbeef.
Proof. apply by_fast. vm_cast_no_check (eq_refl (Some ast_unpol_mgga_x_mbeef)). Qed.
Definition ast_pol_mgga_x_mbeefvdw : program := Eval vm_compute in from_some (generated_fast pol_mgga_x_mbeefvdw).
Lemma gen_pol_mgga_x_mbeefvdw : generated pol_mgga_x_mbeefvdw = Some ast_pol_mgga_x_mbeefvdw.
Proof. apply by_fast. vm_cast_no_check (eq_refl (Some ast_pol_mgga_x_mbeefvdw)). Qed.
Definition ast_unpol_mgga_x_mbeefvdw : program := Eval vm_compute in from_some (generated_fast unpol_mgga_x_mbeefvdw).
Lemma gen_unpol_mgga_x_mbeefvdw : generated unpol_mgga_x_mbeefvdw = Some ast_unpol_mgga_x_mbeefvdw.
Proof. apply by_fast. vm_cast_no_check (eq_refl (Some ast_unpol_mgga_x_mbeefvdw)). Qed.
Definition ast_pol_mgga_x_mbr : program := Eval vm_compute in from_some (generated_fast pol_mgga_x_mbr).
Lemma gen_pol_mgga_x_mbr : generated pol_mgga_x_mbr = Some ast_pol_mgga_x_mbr.
Proof. apply by_fast. vm_cast_no_check (eq_refl (Some ast_pol_mgga_x_mbr)). Qed.
Definition ast_unpol_mgga_x_mbr : program := Eval vm_compute in from_some (generated_fast unpol_mgga_x_mbr).
Lemma gen_unpol_mgga_x_mbr : generated unpol_mgga_x_mbr = Some ast_unpol_mgga_x_mbr.
Proof. apply by_fast. vm_cast_no_check (eq_refl (Some ast_unpol_mgga_x_mbr)). Qed.
Definition ast_pol_mgga_x_mbrxc_bg : program := Eval vm_compute in from_some (generated_fast pol_mgga_x_mbrxc_bg).
Lemma gen_pol_mgga_x_mbrxc_bg : generated pol_mgga_x_mbrxc_bg = Some ast_pol_mgga_x_mbrxc_bg.
Proof. apply by_fast. vm_cast_no_check (eq_refl (Some ast_pol_mgga_x_mbrxc_bg)). Qed.
Definition ast_unpol_mgga_x_mbrxc_bg : program := Eval vm_compute in from_some (generated_fast unpol_mgga_x_mbrxc_bg).
Lemma gen_unpol_mgga_x_mbrxc_bg : generated unpol_mgga_x_mbrxc_bg = Some ast_unpol_mgga_x_mbrxc_bg.
Proof. apply by_fast. vm_cast_no_check (eq_refl (Some ast_unpol_mgga_x_mbrxc_bg)). Qed.
Definition ast_pol_mgga_x_mbrxh_bg : program := Eval vm_compute in from_some (generated_fast pol_mgga_x_mbrxh_bg).
Lemma gen_pol_mgga_x_mbrxh_bg : generated pol_mgga_x_mbrxh_bg = Some ast_pol_mgga_x_mbrxh_bg.
Proof. apply by_fast. vm_cast_no_check (eq_refl (Some ast_pol_mgga_x_mbrxh_bg)). Qed.
Definition ast_unpol_mgga_x_mbrxh_bg : program := Eval vm_compute in from_some (generated_fast unpol_mgga_x_mbrxh_bg).
Lemma gen_unpol_mgga_x_mbrxh_bg : generated unpol_mgga_x_mbrxh_bg = Some ast_unpol_mgga_x_mbrxh_bg.
Proof. apply by_fast. vm_cast_no_check (eq_refl (Some ast_unpol_mgga_x_mbrxh_bg)). Qed.
Definition ast_pol_mgga_x_mcml : program := Eval vm_compute in from_some (generated_fast pol_mgga_x_mcml).
Lemma gen_pol_mgga_x_mcml : generated pol_mgga_x_mcml = Some ast_pol_mgga_x_mcml.
Proof. apply by_fast. vm_cast_no_check (eq_refl (Some ast_pol_mgga_x_mcml)). Qed.
Definition ast_unpol_mgga_x_mcml : program := Eval vm_compute in from_some (generated_fast unpol_mgga_x_mcml).
Lemma gen_unpol_mgga_x_mcml : generated unpol_mgga_x_mcml = Some ast_unpol_mgga_x_mcml.
Proof. apply by_fast. vm_cast_no_check (eq_refl (Some ast_unpol_mgga_x_mcml)). Qed.
Definition ast_pol_mgga_x_mggac : program := Eval vm_compute in from_some (generated_fast pol_mgga_x_mggac).
Lemma gen_pol_mgga_x_mggac : generated pol_mgga_x_mggac = Some ast_pol_mgga_x_mggac.
Proof. apply by_fast. vm_cast_no_check (eq_refl (Some ast_pol_mgga_x_mggac)). Qed.
Definition ast_unpol_mgga_x_mggac : program := Eval vm_compute in from_some (generated_fast unpol_mgga_x_mggac).
Lemma gen_unpol_mgga_x_mggac : generated unpol_mgga_x_mggac = Some ast_unpol_mgga_x_mggac.
Proof. apply by_fast. vm_cast_no_check (eq_refl (Some ast_unpol_mgga_x_mggac)). Qed.
Definition ast_pol_mgga_x_mn12 : program := Eval vm_compute in from_some (generated_fast pol_mgga_x_mn12).
Lemma gen_pol_mgga_x_mn12 : generated pol_mgga_x_mn12 = Some ast_pol_mgga_x_mn12.
Proof. apply by_fast. vm_cast_no_check (eq_refl (Some ast_pol_mgga_x_mn12)). Qed.
Definition ast_unpol_mgga_x_mn12 : program := Eval vm_compute in from_some (generated_fast unpol_mgga_x_mn12).
Lemma gen_unpol_mgga_x_mn12 : generated unpol_mgga_x_mn12 = Some ast_unpol_mgga_x_mn12.
Proof. apply by_fast. vm_cast_no_check (eq_refl (Some ast_unpol_mgga_x_mn12)). Qed.
Definition ast_pol_mgga_x_ms : program := Eval vm_compute in from_some (generated_fast pol_mgga_x_ms).
Lemma gen_pol_mgga_x_ms : generated pol_mgga_x_ms = Some ast_pol_mgga_x_ms.
Proof. apply by_fast. vm_cast_no_check (eq_refl (Some ast_pol_mgga_x_ms)). Qed.
Definition ast_unpol_mgga_x_ms : program := Eval vm_compute in from_some (generated_fast unpol_mgga_x_ms).
Lemma gen_unpol_mgga_x_ms : generated unpol_mgga_x_ms = Some ast_unpol_mgga_x_ms.
Proof. apply by_fast. vm_cast_no_check (eq_refl (Some ast_unpol_mgga_x_ms)). Qed.
Definition ast_pol_mgga_x_msb : program := Eval vm_compute in from_some (generated_fast pol_mgga_x_msb).
Lemma gen_pol_mgga_x_msb : generated pol_mgga_x_msb = Some ast_pol_mgga_x_msb.
Proof. apply by_fast. vm_cast_no_check (eq_refl (Some ast_pol_mgga_x_msb)). Qed.
Definition ast_unpol_mgga_x_msb : program := Eval vm_compute in from_some (generated_fast unpol_mgga_x_msb).
Lemma gen_unpol_mgga_x_msb : generated unpol_mgga_x_msb = Some ast_unpol_mgga_x_msb.
Proof. apply by_fast. vm_cast_no_check (eq_refl (Some ast_unpol_mgga_x_msb)). Qed.
Definition ast_pol_mgga_x_mvs : program := Eval vm_compute in from_some (generated_fast pol_mgga_x_mvs).
Lemma gen_pol_mgga_x_mvs : generated pol_mgga_x_mvs = Some ast_pol_mgga_x_mvs.
Proof. apply by_fast. vm_cast_no_check (eq_refl (Some ast_pol_mgga_x_mvs)). Qed.
Definition ast_unpol_mgga_x_mvs : program := Eval vm_compute in from_some (generated_fast unpol_mgga_x_mvs).
Lemma gen_unpol_mgga_x_mvs : generated unpol_mgga_x_mvs = Some ast_unpol_mgga_x_mvs.
Proof. apply by_fast. vm_cast_no_check (eq_refl (Some ast_unpol_mgga_x_mvs)). Qed.
Definition ast_pol_mgga_x_mvsb : program := Eval vm_compute in from_some (generated_fast pol_mgga_x_mvsb).
Lemma gen_pol_mgga_x_mvsb : generated pol_mgga_x_mvsb = Some ast_pol_mgga_x_mvsb.
Proof. apply by_fast. vm_cast_no_check (eq_refl (Some ast_pol_mgga_x_mvsb)). Qed.
Definition ast_unpol_mgga_x_mvsb : program := Eval vm_compute in from_some (generated_fast unpol_mgga_x_mvsb).
Lemma gen_unpol_mgga_x_mvsb : generated unpol_mgga_x_mvsb = Some ast_unpol_mgga_x_mvsb.
Proof. apply by_fast. vm_cast_no_check (eq_refl (Some ast_unpol_mgga_x_mvsb)). Qed.
Definition ast_pol_mgga_x_pbe_gx : program := Eval vm_compute in from_some (generated_fast pol_mgga_x_pbe_gx).
Lemma gen_pol_mgga_x_pbe_gx : generated pol_mgga_x_pbe_gx = Some ast_pol_mgga_x_pbe_gx.
Proof. apply by_fast. vm_cast_no_check (eq_refl (Some ast_pol_mgga_x_pbe_gx)). Qed.
Definition ast_unpol_mgga_x_pbe_gx : program := Eval vm_compute in from_some (generated_fast unpol_mgga_x_pbe_gx).
Lemma gen_unpol_mgga_x_pbe_gx : generated unpol_mgga_x_pbe_gx = Some ast_unpol_mgga_x_pbe_gx.
Proof. apply by_fast. vm_cast_no_check (eq_refl (Some ast_unpol_mgga_x_pbe_gx)). Qed.
Definition ast_pol_mgga_x_pkzb : program := Eval vm_compute in from_some (generated_fast pol_mgga_x_pkzb).
Lemma gen_pol_mgga_x_pkzb : generated pol_mgga_x_pkzb = Some ast_pol_mgga_x_pkzb.
Proof. apply by_fast. vm_cast_no_check (eq_refl (Some ast_pol_mgga_x_pkzb)). Qed.
Definition ast_unpol_mgga_x_pkzb : program := Eval vm_compute in from_some (generated_fast unpol_mgga_x_pkzb).
Lemma gen_unpol_mgga_x_pkzb : generated unpol_mgga_x_pkzb = Some ast_unpol_mgga_x_pkzb.
Proof. apply by_fast. vm_cast_no_check (eq_refl (Some ast_unpol_mgga_x_pkzb)). Qed.
Definition ast_pol_mgga_x_r2scan : program := Eval vm_compute in from_some (generated_fast pol_mgga_x_r2scan).
Lemma gen_pol_mgga_x_r2scan : generated pol_mgga_x_r2scan = Some ast_pol_mgga_x_r2scan.
Proof. apply by_fast. vm_cast_no_check (eq_refl (Some ast_pol_mgga_x_r2scan)). Qed.
Definition ast_unpol_mgga_x_r2scan : program := Eval vm_compute in from_some (generated_fast unpol_mgga_x_r2scan).
Lemma gen_unpol_mgga_x_r2scan : generated unpol_mgga_x_r2scan = Some ast_unpol_mgga_x_r2scan.
Proof. apply by_fast. vm_cast_no_check (eq_refl (Some ast_unpol_mgga_x_r2scan)). Qed.
Definition ast_pol_mgga_x_r4scan : program := Eval vm_compute in from_some (generated_fast pol_mgga_x_r4scan).
Lemma gen_pol_mgga_x_r4scan : generated pol_mgga_x_r4scan = Some ast_pol_mgga_x_r4scan.
Proof. apply by_fast. vm_cast_no_check (eq_refl (Some ast_pol_mgga_x_r4scan)). Qed.
Definition ast_unpol_mgga_x_r4scan : program := Eval vm_compute in from_some (generated_fast unpol_mgga_x_r4scan).
Lemma gen_unpol_mgga_x_r4scan : generated unpol_mgga_x_r4scan = Some ast_unpol_mgga_x_r4scan.
Proof. apply by_fast. vm_cast_no_check (eq_refl (Some ast_unpol_mgga_x_r4scan)). Qed.
Definition ast_pol_mgga_x_regtm : program := Eval vm_compute in from_some (generated_fast pol_mgga_x_regtm).
Lemma gen_pol_mgga_x_regtm : generated pol_mgga_x_regtm = Some ast_pol_mgga_x_regtm.
Proof. apply by_fast. vm_cast_no_check (eq_refl (Some ast_pol_mgga_x_regtm)). Qed.
Definition ast_unpol_mgga_x_regtm : program := Eval vm_compute in from_some (generated_fast unpol_mgga_x_regtm).
Lemma gen_unpol_mgga_x_regtm : generated unpol_mgga_x_regtm = Some ast_unpol_mgga_x_regtm.
Proof. apply by_fast. vm_cast_no_check (eq_refl (Some ast_unpol_mgga_x_regtm)). Qed.
