(* Generated by tools/gen_src.py: the generated programs of Src4.v, evaluated once. *)
From Coq Require Import List QArith.
From Verif Require Import Bytes Syntax Parser PostProcess PostFast Src.
Import ListNotations.

Definition ast_pol_hyb_mgga_xc_wb97mv : program := Eval vm_compute in from_some (generated_fast pol_hyb_mgga_xc_wb97mv).
Lemma gen_pol_hyb_mgga_xc_wb97mv : generated pol_hyb_mgga_xc_wb97mv = Some ast_pol_hyb_mgga_xc_wb97mv.
Proof. apply by_fast. vm_cast_no_check (eq_refl (Some ast_pol_hyb_mgga_xc_wb97mv)). Qed.
Definition ast_unpol_hyb_mgga_xc_wb97mv : program := Eval vm_compute in from_some (generated_fast unpol_hyb_mgga_xc_wb97mv).
Lemma gen_unpol_hyb_mgga_xc_wb97mv : generated unpol_hyb_mgga_xc_wb97mv = Some ast_unpol_hyb_mgga_xc_wb97mv.
Proof. apply by_fast. vm_cast_no_check (eq_refl (Some ast_unpol_hyb_mgga_xc_wb97mv)). Qed.
Definition ast_pol_lda_c_1d_csc : program := Eval vm_compute in from_some (generated_fast pol_lda_c_1d_csc).
Lemma gen_pol_lda_c_1d_csc : generated pol_lda_c_1d_csc = Some ast_pol_lda_c_1d_csc.
Proof. apply by_fast. vm_cast_no_check (eq_refl (Some ast_pol_lda_c_1d_csc)). Qed.
Definition ast_unpol_lda_c_1d_csc : program := Eval vm_compute in from_some (generated_fast unpol_lda_c_1d_csc).
Lemma gen_unpol_lda_c_1d_csc : generated unpol_lda_c_1d_csc = Some ast_unpol_lda_c_1d_csc.
Proof. apply by_fast. vm_cast_no_check (eq_refl (Some ast_unpol_lda_c_1d_csc)). Qed.
Definition ast_pol_lda_c_1d_loos : program := Eval vm_compute in from_some (generated_fast pol_lda_c_1d_loos).
Lemma gen_pol_lda_c_1d_loos : generated pol_lda_c_1d_loos = Some ast_pol_lda_c_1d_loos.
Proof. apply by_fast. vm_cast_no_check (eq_refl (Some ast_pol_lda_c_1d_loos)). Qed.
Definition ast_unpol_lda_c_1d_loos : program := Eval vm_compute in from_some (generated_fast unpol_lda_c_1d_loos).
Lemma gen_unpol_lda_c_1d_loos : generated unpol_lda_c_1d_loos = Some ast_unpol_lda_c_1d_loos.
Proof. apply by_fast. vm_cast_no_check (eq_refl (Some ast_unpol_lda_c_1d_loos)). Qed.
Definition ast_pol_lda_c_2d_amgb : program := Eval vm_compute in from_some (generated_fast pol_lda_c_2d_amgb).
Lemma gen_pol_lda_c_2d_amgb : generated pol_lda_c_2d_amgb = Some ast_pol_lda_c_2d_amgb.
Proof. apply by_fast. vm_cast_no_check (eq_refl (Some ast_pol_lda_c_2d_amgb)). Qed.
Definition ast_unpol_lda_c_2d_amgb : program := Eval vm_compute in from_some (generated_fast unpol_lda_c_2d_amgb).
Lemma gen_unpol_lda_c_2d_amgb : generated unpol_lda_c_2d_amgb = Some ast_unpol_lda_c_2d_amgb.
Proof. apply by_fast. vm_cast_no_check (eq_refl (Some ast_unpol_lda_c_2d_amgb)). Qed.
Definition ast_pol_lda_c_2d_prm : program := Eval vm_compute in from_some (generated_fast pol_lda_c_2d_prm).
Lemma gen_pol_lda_c_2d_prm : generated pol_lda_c_2d_prm = Some ast_pol_lda_c_2d_prm.
Proof. apply by_fast. vm_cast_no_check (eq_refl (Some ast_pol_lda_c_2d_prm)). Qed.
Definition ast_unpol_lda_c_2d_prm : program := Eval vm_compute in from_some (generated_fast unpol_lda_c_2d_prm).
Lemma gen_unpol_lda_c_2d_prm : generated unpol_lda_c_2d_prm = Some ast_unpol_lda_c_2d_prm.
Proof. apply by_fast. vm_cast_no_check (eq_refl (Some ast_unpol_lda_c_2d_prm)). Qed.
Definition ast_pol_lda_c_chachiyo : program := Eval vm_compute in from_some (generated_fast pol_lda_c_chachiyo).
Lemma gen_pol_lda_c_chachiyo : generated pol_lda_c_chachiyo = Some ast_pol_lda_c_chachiyo.
Proof. apply by_fast. vm_cast_no_check (eq_refl (Some ast_pol_lda_c_chachiyo)). Qed.
Definition ast_unpol_lda_c_chachiyo : program := Eval vm_compute in from_some (generated_fast unpol_lda_c_chachiyo).
Lemma gen_unpol_lda_c_chachiyo : generated unpol_lda_c_chachiyo = Some ast_unpol_lda_c_chachiyo.
Proof. apply by_fast. vm_cast_no_check (eq_refl (Some ast_unpol_lda_c_chachiyo)). Qed.
Definition ast_pol_lda_c_chachiyo_mod : program := Eval vm_compute in from_some (generated_fast pol_lda_c_chachiyo_mod).
Lemma gen_pol_lda_c_chachiyo_mod : generated pol_lda_c_chachiyo_mod = Some ast_pol_lda_c_chachiyo_mod.
Proof. apply by_fast. vm_cast_no_check (eq_refl (Some ast_pol_lda_c_chachiyo_mod)). Qed.
Definition ast_unpol_lda_c_chachiyo_mod : program := Eval vm_compute in from_some (generated_fast unpol_lda_c_chachiyo_mod).
Lemma gen_unpol_lda_c_chachiyo_mod : generated unpol_lda_c_chachiyo_mod = Some ast_unpol_lda_c_chachiyo_mod.
Proof. apply by_fast. vm_cast_no_check (eq_refl (Some ast_unpol_lda_c_chachiyo_mod)). Qed.
Definition ast_pol_lda_c_gk72 : program := Eval vm_compute in from_some (generated_fast pol_lda_c_gk72).
Lemma gen_pol_lda_c_gk72 : generated pol_lda_c_gk72 = Some ast_pol_lda_c_gk72.
Proof. apply by_fast. vm_cast_no_check (eq_refl (Some ast_pol_lda_c_gk72)). Qed.
Definition ast_unpol_lda_c_gk72 : program := Eval vm_compute in from_some (generated_fast unpol_lda_c_gk72).
Lemma gen_unpol_lda_c_gk72 : generated unpol_lda_c_gk72 = Some ast_unpol_lda_c_gk72.
Proof. apply by_fast. vm_cast_no_check (eq_refl (Some ast_unpol_lda_c_gk72)). Qed.
Definition ast_pol_lda_c_gombas : program := Eval vm_compute in from_some (generated_fast pol_lda_c_gombas).
Lemma gen_pol_lda_c_gombas : generated pol_lda_c_gombas = Some ast_pol_lda_c_gombas.
Proof. apply by_fast. vm_cast_no_check (eq_refl (Some ast_pol_lda_c_gombas)). Qed.
Definition ast_unpol_lda_c_gombas : program := Eval vm_compute in from_some (generated_fast unpol_lda_c_gombas).
Lemma gen_unpol_lda_c_gombas : generated unpol_lda_c_gombas = Some ast_unpol_lda_c_gombas.
Proof. apply by_fast. vm_cast_no_check (eq_refl (Some ast_unpol_lda_c_gombas)). Qed.
Definition ast_pol_lda_c_hl : program := Eval vm_compute in from_some (generated_fast pol_lda_c_hl).
Lemma gen_pol_lda_c_hl : generated pol_lda_c_hl = Some ast_pol_lda_c_hl.
Proof. apply by_fast. vm_cast_no_check (eq_refl (Some ast_pol_lda_c_hl)). Qed.
Definition ast_unpol_lda_c_hl : program := Eval vm_compute in from_some (generated_fast unpol_lda_c_hl).
Lemma gen_unpol_lda_c_hl : generated unpol_lda_c_hl = Some ast_unpol_lda_c_hl.
Proof. apply by_fast. vm_cast_no_check (eq_refl (Some ast_unpol_lda_c_hl)). Qed.
Definition ast_pol_lda_c_lp96 : program := Eval vm_compute in from_some (generated_fast pol_lda_c_lp96).
Lemma gen_pol_lda_c_lp96 : generated pol_lda_c_lp96 = Some ast_pol_lda_c_lp96.
Proof. apply by_fast. vm_cast_no_check (eq_refl (Some ast_pol_lda_c_lp96)). Qed.
Definition ast_unpol_lda_c_lp96 : program := Eval vm_compute in from_some (generated_fast unpol_lda_c_lp96).
Lemma gen_unpol_lda_c_lp96 : generated unpol_lda_c_lp96 = Some ast_unpol_lda_c_lp96.
Proof. apply by_fast. vm_cast_no_check (eq_refl (Some ast_unpol_lda_c_lp96)). Qed.
Definition ast_pol_lda_c_ml1 : program := Eval vm_compute in from_some (generated_fast pol_lda_c_ml1).
Lemma gen_pol_lda_c_ml1 : generated pol_lda_c_ml1 = Some ast_pol_lda_c_ml1.
Proof. apply by_fast. vm_cast_no_check (eq_refl (Some ast_pol_lda_c_ml1)). Qed.
Definition ast_unpol_lda_c_ml1 : program := Eval vm_compute in from_some (generated_fast unpol_lda_c_ml1).
Lemma gen_unpol_lda_c_ml1 : generated unpol_lda_c_ml1 = Some ast_unpol_lda_c_ml1.
Proof. apply by_fast. vm_cast_no_check (eq_refl (Some ast_unpol_lda_c_ml1)). Qed.
Definition ast_pol_lda_c_pk09 : program := Eval vm_compute in from_some (generated_fast pol_lda_c_pk09).
Lemma gen_pol_lda_c_pk09 : generated pol_lda_c_pk09 = Some ast_pol_lda_c_pk09.
Proof. apply by_fast. vm_cast_no_check (eq_refl (Some ast_pol_lda_c_pk09)). Qed.
Definition ast_unpol_lda_c_pk09 : program := Eval vm_compute in from_some (generated_fast unpol_lda_c_pk09).
Lemma gen_unpol_lda_c_pk09 : generated unpol_lda_c_pk09 = Some ast_unpol_lda_c_pk09.
Proof. apply by_fast. vm_cast_no_check (eq_refl (Some ast_unpol_lda_c_pk09)). Qed.
Definition ast_pol_lda_c_pmgb06 : program := Eval vm_compute in from_some (generated_fast pol_lda_c_pmgb06).
Lemma gen_pol_lda_c_pmgb06 : generated pol_lda_c_pmgb06 = Some ast_pol_lda_c_pmgb06.
Proof. apply by_fast. vm_cast_no_check (eq_refl (Some ast_pol_lda_c_pmgb06)). Qed.
Definition ast_unpol_lda_c_pmgb06 : program := Eval vm_compute in from_some (generated_fast unpol_lda_c_pmgb06).
Lemma gen_unpol_lda_c_pmgb06 : generated unpol_lda_c_pmgb06 = Some ast_unpol_lda_c_pmgb06.
Proof. apply by_fast. vm_cast_no_check (eq_refl (Some ast_unpol_lda_c_pmgb06)). Qed.
Definition ast_pol_lda_c_pw : program := Eval vm_compute in from_some (generated_fast pol_lda_c_pw).
Lemma gen_pol_lda_c_pw : generated pol_lda_c_pw = Some ast_pol_lda_c_pw.
Proof. apply by_fast. vm_cast_no_check (eq_refl (Some ast_pol_lda_c_pw)). Qed.
Definition ast_unpol_lda_c_pw : program := Eval vm_compute in from_some (generated_fast unpol_lda_c_pw).
Lemma gen_unpol_lda_c_pw : generated unpol_lda_c_pw = Some ast_unpol_lda_c_pw.
Proof. apply by_fast. vm_cast_no_check (eq_refl (Some ast_unpol_lda_c_pw)). Qed.
Definition ast_pol_lda_c_pz : program := Eval vm_compute in from_some (generated_fast pol_lda_c_pz).
Lemma gen_pol_lda_c_pz : generated pol_lda_c_pz = Some ast_pol_lda_c_pz.
Proof. apply by_fast. vm_cast_no_check (eq_refl (Some ast_pol_lda_c_pz)). Qed.
Definition ast_unpol_lda_c_pz : program := Eval vm_compute in from_some (generated_fast unpol_lda_c_pz).
Lemma gen_unpol_lda_c_pz : generated unpol_lda_c_pz = Some ast_unpol_lda_c_pz.
Proof. apply by_fast. vm_cast_no_check (eq_refl (Some ast_unpol_lda_c_pz)). Qed.
Definition ast_pol_lda_c_rc04 : program := Eval vm_compute in from_some (generated_fast pol_lda_c_rc04).
Lemma gen_pol_lda_c_rc04 : generated pol_lda_c_rc04 = Some ast_pol_lda_c_rc04.
Proof. apply by_fast. vm_cast_no_check (eq_refl (Some ast_pol_lda_c_rc04)). Qed.
Definition ast_unpol_lda_c_rc04 : program := Eval vm_compute in from_some (generated_fast unpol_lda_c_rc04).
Lemma gen_unpol_lda_c_rc04 : generated unpol_lda_c_rc04 = Some ast_unpol_lda_c_rc04.
Proof. apply by_fast. vm_cast_no_check (eq_refl (Some ast_unpol_lda_c_rc04)). Qed.
Definition ast_pol_lda_c_rpa : program := Eval vm_compute in from_some (generated_fast pol_lda_c_rpa).
Lemma gen_pol_lda_c_rpa : generated pol_lda_c_rpa = Some ast_pol_lda_c_rpa.
Proof. apply by_fast. vm_cast_no_check (eq_refl (Some ast_pol_lda_c_rpa)). Qed.
Definition ast_unpol_lda_c_rpa : program := Eval vm_compute in from_some (generated_fast unpol_lda_c_rpa).
Lemma gen_unpol_lda_c_rpa : generated unpol_lda_c_rpa = Some ast_unpol_lda_c_rpa.
Proof. apply by_fast. vm_cast_no_check (eq_refl (Some ast_unpol_lda_c_rpa)). Qed.
Definition ast_pol_lda_c_vwn : program := Eval vm_compute in from_some (generated_fast pol_lda_c_vwn).
Lemma gen_pol_lda_c_vwn : generated pol_lda_c_vwn = Some ast_pol_lda_c_vwn.
Proof. apply by_fast. vm_cast_no_check (eq_refl (Some ast_pol_lda_c_vwn)). Qed.
Definition ast_unpol_lda_c_vwn : program := Eval vm_compute in from_some (generated_fast unpol_lda_c_vwn).
Lemma gen_unpol_lda_c_vwn : generated unpol_lda_c_vwn = Some ast_unpol_lda_c_vwn.
Proof. apply by_fast. vm_cast_no_check (eq_refl (Some ast_unpol_lda_c_vwn)). Qed.
Definition ast_pol_lda_c_vwn_1 : program := Eval vm_compute in from_some (generated_fast pol_lda_c_vwn_1).
Lemma gen_pol_lda_c_vwn_1 : generated pol_lda_c_vwn_1 = Some ast_pol_lda_c_vwn_1.
Proof. apply by_fast. vm_cast_no_check (eq_refl (Some ast_pol_lda_c_vwn_1)). Qed.
Definition ast_unpol_lda_c_vwn_1 : program := Eval vm_compute in from_some (generated_fast unpol_lda_c_vwn_1).
Lemma gen_unpol_lda_c_vwn_1 : generated unpol_lda_c_vwn_1 = Some ast_unpol_lda_c_vwn_1.
Proof. apply by_fast. vm_cast_no_check (eq_refl (Some ast_unpol_lda_c_vwn_1)). Qed.
Definition ast_pol_lda_c_vwn_2 : program := Eval vm_compute in from_some (generated_fast pol_lda_c_vwn_2).
Lemma gen_pol_lda_c_vwn_2 : generated pol_lda_c_vwn_2 = Some ast_pol_lda_c_vwn_2.
Proof. apply by_fast. vm_cast_no_check (eq_refl (Some ast_pol_lda_c_vwn_2)). Qed.
Definition ast_unpol_lda_c_vwn_2 : program := Eval vm_compute in from_some (generated_fast unpol_lda_c_vwn_2).
Lemma gen_unpol_lda_c_vwn_2 : generated unpol_lda_c_vwn_2 = Some ast_unpol_lda_c_vwn_2.
Proof. apply by_fast. vm_cast_no_check (eq_refl (Some ast_unpol_lda_c_vwn_2)). Qed.
Definition ast_pol_lda_c_vwn_3 : program := Eval vm_compute in from_some (generated_fast pol_lda_c_vwn_3).
Lemma gen_pol_lda_c_vwn_3 : generated pol_lda_c_vwn_3 = Some ast_pol_lda_c_vwn_3.
Proof. apply by_fast. vm_cast_no_check (eq_refl (Some ast_pol_lda_c_vwn_3)). Qed.
Definition ast_unpol_lda_c_vwn_3 : program := Eval vm_compute in from_some (generated_fast unpol_lda_c_vwn_3).
Lemma gen_unpol_lda_c_vwn_3 : generated unpol_lda_c_vwn_3 = Some ast_unpol_lda_c_vwn_3.
Proof. apply by_fast. vm_cast_no_check (eq_refl (Some ast_unpol_lda_c_vwn_3)). Qed.
Definition ast_pol_lda_c_vwn_4 : program := Eval vm_compute in from_some (generated_fast pol_lda_c_vwn_4).
Lemma gen_pol_lda_c_vwn_4 : generated pol_lda_c_vwn_4 = Some ast_pol_lda_c_vwn_4.
Proof. apply by_fast. vm_cast_no_check (eq_refl (Some ast_pol_lda_c_vwn_4)). Qed.
Definition ast_unpol_lda_c_vwn_4 : program := Eval vm_compute in from_some (generated_fast unpol_lda_c_vwn_4).
Lemma gen_unpol_lda_c_vwn_4 : generated unpol_lda_c_vwn_4 = Some ast_unpol_lda_c_vwn_4.
Proof. apply by_fast. vm_cast_no_check (eq_refl (Some ast_unpol_lda_c_vwn_4)). Qed.
Definition ast_pol_lda_c_vwn_rpa : program := Eval vm_compute in from_some (generated_fast pol_lda_c_vwn_rpa).
Lemma gen_pol_lda_c_vwn_rpa : generated pol_lda_c_vwn_rpa = Some ast_pol_lda_c_vwn_rpa.
Proof. apply by_fast. vm_cast_no_check (eq_refl (Some ast_pol_lda_c_vwn_rpa)). Qed.
Definition ast_unpol_lda_c_vwn_rpa : program := Eval vm_compute in from_some (generated_fast unpol_lda_c_vwn_rpa).
Lemma gen_unpol_lda_c_vwn_rpa : generated unpol_lda_c_vwn_rpa = Some ast_unpol_lda_c_vwn_rpa.
Proof. apply by_fast. vm_cast_no_check (eq_refl (Some ast_unpol_lda_c_vwn_rpa)). Qed.
Definition ast_pol_lda_c_w20 : program := Eval vm_compute in from_some (generated_fast pol_lda_c_w20).
Lemma gen_pol_lda_c_w20 : generated pol_lda_c_w20 = Some ast_pol_lda_c_w20.
Proof. apply by_fast. vm_cast_no_check (eq_refl (Some ast_pol_lda_c_w20)). Qed.
Definition ast_unpol_lda_c_w20 : program := Eval vm_compute in from_some (generated_fast unpol_lda_c_w20).
Lemma gen_unpol_lda_c_w20 : generated unpol_lda_c_w20 = Some ast_unpol_lda_c_w20.
Proof. apply by_fast. vm_cast_no_check (eq_refl (Some ast_unpol_lda_c_w20)). Qed.
Definition ast_pol_lda_c_wigner : program := Eval vm_compute in from_some (generated_fast pol_lda_c_wigner).
Lemma gen_pol_lda_c_wigner : generated pol_lda_c_wigner = Some ast_pol_lda_c_wigner.
Proof. apply by_fast. vm_cast_no_check (eq_refl (Some ast_pol_lda_c_wigner)). Qed.
Definition ast_unpol_lda_c_wigner : program := Eval vm_compute in from_some (generated_fast unpol_lda_c_wigner).
Lemma gen_unpol_lda_c_wigner : generated unpol_lda_c_wigner = Some ast_unpol_lda_c_wigner.
Proof. apply by_fast. vm_cast_no_check (eq_refl (Some ast_unpol_lda_c_wigner)). Qed.
Definition ast_pol_lda_k_gds08_worker : program := Eval vm_compute in from_some (generated_fast pol_lda_k_gds08_worker).
Lemma gen_pol_lda_k_gds08_worker : generated pol_lda_k_gds08_worker = Some ast_pol_lda_k_gds08_worker.
Proof. apply by_fast. vm_cast_no_check (eq_refl (Some ast_pol_lda_k_gds08_worker)). Qed.
Definition ast_unpol_lda_k_gds08_worker : program := Eval vm_compute in from_some (generated_fast unpol_lda_k_gds08_worker).
Lemma gen_unpol_lda_k_gds08_worker : generated unpol_lda_k_gds08_worker = Some ast_unpol_lda_k_gds08_worker.
Proof. apply by_fast. vm_cast_no_check (eq_refl (Some ast_unpol_lda_k_gds08_worker)). Qed.
Definition ast_pol_lda_k_tf : program := Eval vm_compute in from_some (generated_fast pol_lda_k_tf).
Lemma gen_pol_lda_k_tf : generated pol_lda_k_tf = Some ast_pol_lda_k_tf.
Proof. apply by_fast. vm_cast_no_check (eq_refl (Some ast_pol_lda_k_tf)). Qed.
Definition ast_unpol_lda_k_tf : program := Eval vm_compute in from_some (generated_fast unpol_lda_k_tf).
Lemma gen_unpol_lda_k_tf : generated unpol_lda_k_tf = Some ast_unpol_lda_k_tf.
Proof. apply by_fast. vm_cast_no_check (eq_refl (Some ast_unpol_lda_k_tf)). Qed.
Definition ast_pol_lda_k_zlp : program := Eval vm_compute in from_some (generated_fast pol_lda_k_zlp).
Lemma gen_pol_lda_k_zlp : generated pol_lda_k_zlp = Some ast_pol_lda_k_zlp.
Proof. apply by_fast. vm_cast_no_check (eq_refl (Some ast_pol_lda_k_zlp)). Qed.
Definition ast_unpol_lda_k_zlp : program := Eval vm_compute in from_some (generated_fast unpol_lda_k_zlp).
Lemma gen_unpol_lda_k_zlp : generated unpol_lda_k_zlp = Some ast_unpol_lda_k_zlp.
Proof. apply by_fast. vm_cast_no_check (eq_refl (Some ast_unpol_lda_k_zlp)). Qed.
Definition ast_pol_lda_x : program := Eval vm_compute in from_some (generated_fast pol_lda_x).
Lemma gen_pol_lda_x : generated pol_lda_x = Some ast_pol_lda_x.
Proof. apply by_fast. vm_cast_no_check (eq_refl (Some ast_pol_lda_x)). Qed.
Definition ast_unpol_lda_x : program := Eval vm_compute in from_some (generated_fast unpol_lda_x).
Lemma gen_unpol_lda_x : generated unpol_lda_x = Some ast_unpol_lda_x.
Proof. apply by_fast. vm_cast_no_check (eq_refl (Some ast_unpol_lda_x)). Qed.
Definition ast_pol_lda_x_1d_exponential : program := Eval vm_compute in from_some (generated_fast pol_lda_x_1d_exponential).
Lemma gen_pol_lda_x_1d_exponential : generated pol_lda_x_1d_exponential = Some ast_pol_lda_x_1d_exponential.
Proof. apply by_fast. vm_cast_no_check (eq_refl (Some ast_pol_lda_x_1d_exponential)). Qed.
Definition ast_unpol_lda_x_1d_exponential : program := Eval vm_compute in from_some (generated_fast unpol_lda_x_1d_exponential).
Lemma gen_unpol_lda_x_1d_exponential : generated unpol_lda_x_1d_exponential = Some ast_unpol_lda_x_1d_exponential.
Proof. apply by_fast. vm_cast_no_check (eq_refl (Some ast_unpol_lda_x_1d_exponential)). Qed.
Definition ast_pol_lda_x_1d_soft : program := Eval vm_compute in from_some (generated_fast pol_lda_x_1d_soft).
Lemma gen_pol_lda_x_1d_soft : generated pol_lda_x_1d_soft = Some ast_pol_lda_x_1d_soft.
Proof. apply by_fast. vm_cast_no_check (eq_refl (Some ast_pol_lda_x_1d_soft)). Qed.
Definition ast_unpol_lda_x_1d_soft : program := Eval vm_compute in from_some (generated_fast unpol_lda_x_1d_soft).
Lemma gen_unpol_lda_x_1d_soft : generated unpol_lda_x_1d_soft = Some ast_unpol_lda_x_1d_soft.
Proof. apply by_fast. vm_cast_no_check (eq_refl (Some ast_unpol_lda_x_1d_soft)). Qed.
Definition ast_pol_lda_x_2d : program := Eval vm_compute in from_some (generated_fast pol_lda_x_2d).
Lemma gen_pol_lda_x_2d : generated pol_lda_x_2d = Some ast_pol_lda_x_2d.
Proof. apply by_fast. vm_cast_no_check (eq_refl (Some ast_pol_lda_x_2d)). Qed.
Definition ast_unpol_lda_x_2d : program := Eval vm_compute in from_some (generated_fast unpol_lda_x_2d).
Lemma gen_unpol_lda_x_2d : generated unpol_lda_x_2d = Some ast_unpol_lda_x_2d.
Proof. apply by_fast. vm_cast_no_check (eq_refl (Some ast_unpol_lda_x_2d)). Qed.
Definition ast_pol_lda_x_erf : program := Eval vm_compute in from_some (generated_fast pol_lda_x_erf).
Lemma gen_pol_lda_x_erf : generated pol_lda_x_erf = Some ast_pol_lda_x_erf.
Proof. apply by_fast. vm_cast_no_check (eq_refl (Some ast_pol_lda_x_erf)). Qed.
Definition ast_unpol_lda_x_erf : program := Eval vm_compute in from_some (generated_fast unpol_lda_x_erf).
Lemma gen_unpol_lda_x_erf : generated unpol_lda_x_erf = Some ast_unpol_lda_x_erf.
Proof. apply by_fast. vm_cast_no_check (eq_refl (Some ast_unpol_lda_x_erf)). Qed.
Definition ast_pol_lda_x_rel : program := Eval vm_compute in from_some (generated_fast pol_lda_x_rel).
Lemma gen_pol_lda_x_rel : generated pol_lda_x_rel = Some ast_pol_lda_x_rel.
Proof. apply by_fast. vm_cast_no_check (eq_refl (Some ast_pol_lda_x_rel)). Qed.
Definition ast_unpol_lda_x_rel : program := Eval vm_compute in from_some (generated_fast unpol_lda_x_rel).
Lemma gen_unpol_lda_x_rel : generated unpol_lda_x_rel = Some ast_unpol_lda_x_rel.
Proof. apply by_fast. vm_cast_no_check (eq_refl (Some ast_unpol_lda_x_rel)). Qed.
Definition ast_pol_lda_x_sloc : program := Eval vm_compute in from_some (generated_fast pol_lda_x_sloc).
Lemma gen_pol_lda_x_sloc : generated pol_lda_x_sloc = Some ast_pol_lda_x_sloc.
Proof. apply by_fast. vm_cast_no_check (eq_refl (Some ast_pol_lda_x_sloc)). Qed.
Definition ast_unpol_lda_x_sloc : program := Eval vm_compute in from_some (generated_fast unpol_lda_x_sloc).
Lemma gen_unpol_lda_x_sloc : generated unpol_lda_x_sloc = Some ast_unpol_lda_x_sloc.
Proof. apply by_fast. vm_cast_no_check (eq_refl (Some ast_unpol_lda_x_sloc)). Qed.
Definition ast_pol_lda_x_yukawa : program := Eval vm_compute in from_some (generated_fast pol_lda_x_yukawa).
Lemma gen_pol_lda_x_yukawa : generated pol_lda_x_yukawa = Some ast_pol_lda_x_yukawa.
Proof. apply by_fast. vm_cast_no_check (eq_refl (Some ast_pol_lda_x_yukawa)). Qed.
Definition ast_unpol_lda_x_yukawa : program := Eval vm_compute in from_some (generated_fast unpol_lda_x_yukawa).
Lemma gen_unpol_lda_x_yukawa : generated unpol_lda_x_yukawa = Some ast_unpol_lda_x_yukawa.
Proof. apply by_fast. vm_cast_no_check (eq_refl (Some ast_unpol_lda_x_yukawa)). Qed.
Definition ast_pol_lda_xc_1d_ehwlrg : program := Eval vm_compute in from_some (generated_fast pol_lda_xc_1d_ehwlrg).
Lemma gen_pol_lda_xc_1d_ehwlrg : generated pol_lda_xc_1d_ehwlrg = Some ast_pol_lda_xc_1d_ehwlrg.
Proof. apply by_fast. vm_cast_no_check (eq_refl (Some ast_pol_lda_xc_1d_ehwlrg)). Qed.
Definition ast_unpol_lda_xc_1d_ehwlrg : program := Eval vm_compute in from_some (generated_fast unpol_lda_xc_1d_ehwlrg).
Lemma gen_unpol_lda_xc_1d_ehwlrg : generated unpol_lda_xc_1d_ehwlrg = Some ast_unpol_lda_xc_1d_ehwlrg.
Proof. apply by_fast. vm_cast_no_check (eq_refl (Some ast_unpol_lda_xc_1d_ehwlrg)). Qed.
Definition ast_pol_lda_xc_ksdt : program := Eval vm_compute in from_some (generated_fast pol_lda_xc_ksdt).
Lemma gen_pol_lda_xc_ksdt : generated pol_lda_xc_ksdt = Some ast_pol_lda_xc_ksdt.
Proof. apply by_fast. vm_cast_no_check (eq_refl (Some ast_pol_lda_xc_ksdt)). Qed.
Definition ast_unpol_lda_xc_ksdt : program := Eval vm_compute in from_some (generated_fast unpol_lda_xc_ksdt).
Lemma gen_unpol_lda_xc_ksdt : generated unpol_lda_xc_ksdt = Some ast_unpol_lda_xc_ksdt.
Proof. apply by_fast. vm_cast_no_check (eq_refl (Some ast_unpol_lda_xc_ksdt)). Qed.
Definition ast_pol_lda_xc_teter93 : program := Eval vm_compute in from_some (generated_fast pol_lda_xc_teter93).
Lemma gen_pol_lda_xc_teter93 : generated pol_lda_xc_teter93 = Some ast_pol_lda_xc_teter93.
Proof. apply by_fast. vm_cast_no_check (eq_refl (Some ast_pol_lda_xc_teter93)). Qed.
Definition ast_unpol_lda_xc_teter93 : program := Eval vm_compute in from_some (generated_fast unpol_lda_xc_teter93).
Lemma gen_unpol_lda_xc_teter93 : generated unpol_lda_xc_teter93 = Some ast_unpol_lda_xc_teter93.
Proof. apply by_fast. vm_cast_no_check (eq_refl (Some ast_unpol_lda_xc_teter93)). Qed.
Definition ast_pol_lda_xc_tih : program := Eval vm_compute in from_some (generated_fast pol_lda_xc_tih).
Lemma gen_pol_lda_xc_tih : generated pol_lda_xc_tih = Some ast_pol_lda_xc_tih.
Proof. apply by_fast. vm_cast_no_check (eq_refl (Some ast_pol_lda_xc_tih)). Qed.
Definition ast_unpol_lda_xc_tih : program := Eval vm_compute in from_some (generated_fast unpol_lda_xc_tih).
Lemma gen_unpol_lda_xc_tih : generated unpol_lda_xc_tih = Some ast_unpol_lda_xc_tih.
Proof. apply by_fast. vm_cast_no_check (eq_refl (Some ast_unpol_lda_xc_tih)). Qed.
Definition ast_pol_lda_xc_zlp : program := Eval vm_compute in from_some (generated_fast pol_lda_xc_zlp).
Lemma gen_pol_lda_xc_zlp : generated pol_lda_xc_zlp = Some ast_pol_lda_xc_zlp.
Proof. apply by_fast. vm_cast_no_check (eq_refl (Some ast_pol_lda_xc_zlp)). Qed.
Definition ast_unpol_lda_xc_zlp : program := Eval vm_compute in from_some (generated_fast unpol_lda_xc_zlp).
Lemma gen_unpol_lda_xc_zlp : generated unpol_lda_xc_zlp = Some ast_unpol_lda_xc_zlp.
Proof. apply by_fast. vm_cast_no_check (eq_refl (Some ast_unpol_lda_xc_zlp)). Qed.
Definition ast_pol_mgga_c_b88 : program := Eval vm_compute in from_some (generated_fast pol_mgga_c_b88).
Lemma gen_pol_mgga_c_b88 : generated pol_mgga_c_b88 = Some ast_pol_mgga_c_b88.
Proof. apply by_fast. vm_cast_no_check (eq_refl (Some ast_pol_mgga_c_b88)). Qed.
Definition ast_unpol_mgga_c_b88 : program := Eval vm_compute in from_some (generated_fast unpol_mgga_c_b88).
Lemma gen_unpol_mgga_c_b88 : generated unpol_mgga_c_b88 = Some ast_unpol_mgga_c_b88.
Proof. apply by_fast. vm_cast_no_check (eq_refl (Some ast_unpol_mgga_c_b88)). Qed.
Definition ast_pol_mgga_c_b94 : program := Eval vm_compute in from_some (generated_fast pol_mgga_c_b94).
Lemma gen_pol_mgga_c_b94 : generated pol_mgga_c_b94 = Some ast_pol_mgga_c_b94.
Proof. apply by_fast. vm_cast_no_check (eq_refl (Some ast_pol_mgga_c_b94)). Qed.
Definition ast_unpol_mgga_c_b94 : program := Eval vm_compute in from_some (generated_fast unpol_mgga_c_b94).
Lemma gen_unpol_mgga_c_b94 : generated unpol_mgga_c_b94 = Some ast_unpol_mgga_c_b94.
Proof. apply by_fast. vm_cast_no_check (eq_refl (Some ast_unpol_mgga_c_b94)). Qed.
Definition ast_pol_mgga_c_bc95 : program := Eval vm_compute in from_some (generated_fast pol_mgga_c_bc95).
Lemma gen_pol_mgga_c_bc95 : generated pol_mgga_c_bc95 = Some ast_pol_mgga_c_bc95.
Proof. apply by_fast. vm_cast_no_check (eq_refl (Some ast_pol_mgga_c_bc95)). Qed.
Definition ast_unpol_mgga_c_bc95 : program := Eval vm_compute in from_some (generated_fast unpol_mgga_c_bc95).
Lemma gen_unpol_mgga_c_bc95 : generated unpol_mgga_c_bc95 = Some ast_unpol_mgga_c_bc95.
Proof. apply by_fast. vm_cast_no_check (eq_refl (Some ast_unpol_mgga_c_bc95)). Qed.
Definition ast_pol_mgga_c_cc : program := Eval vm_compute in from_some (generated_fast pol_mgga_c_cc).
Lemma gen_pol_mgga_c_cc : generated pol_mgga_c_cc = Some ast_pol_mgga_c_cc.
Proof. apply by_fast. vm_cast_no_check (eq_refl (Some ast_pol_mgga_c_cc)). Qed.
Definition ast_unpol_mgga_c_cc : program := Eval vm_compute in from_some (generated_fast unpol_mgga_c_cc).
Lemma gen_unpol_mgga_c_cc : generated unpol_mgga_c_cc = Some ast_unpol_mgga_c_cc.
Proof. apply by_fast. vm_cast_no_check (eq_refl (Some ast_unpol_mgga_c_cc)). Qed.
Definition ast_pol_mgga_c_ccalda : program := Eval vm_compute in from_some (generated_fast pol_mgga_c_ccalda).
Lemma gen_pol_mgga_c_ccalda : generated pol_mgga_c_ccalda = Some ast_pol_mgga_c_ccalda.
Proof. apply by_fast. vm_cast_no_check (eq_refl (Some ast_pol_mgga_c_ccalda)). Qed.
Definition ast_unpol_mgga_c_ccalda : program := Eval vm_compute in from_some (generated_fast unpol_mgga_c_ccalda).
Lemma gen_unpol_mgga_c_ccalda : generated unpol_mgga_c_ccalda = Some ast_unpol_mgga_c_ccalda.
Proof. apply by_fast. vm_cast_no_check (eq_refl (Some ast_unpol_mgga_c_ccalda)). Qed.
Definition ast_pol_mgga_c_cs : program := Eval vm_compute in from_some (generated_fast pol_mgga_c_cs).
Lemma gen_pol_mgga_c_cs : generated pol_mgga_c_cs = Some ast_pol_mgga_c_cs.
Proof. apply by_fast. vm_cast_no_check (eq_refl (Some ast_pol_mgga_c_cs)). Qed.
Definition ast_unpol_mgga_c_cs : program := Eval vm_compute in from_some (generated_fast unpol_mgga_c_cs).
Lemma gen_unpol_mgga_c_cs : generated unpol_mgga_c_cs = Some ast_unpol_mgga_c_cs.
Proof. apply by_fast. vm_cast_no_check (eq_refl (Some ast_unpol_mgga_c_cs)). Qed.
Definition ast_pol_mgga_c_kcis : program := Eval vm_compute in from_some (generated_fast pol_mgga_c_kcis).
Lemma gen_pol_mgga_c_kcis : generated pol_mgga_c_kcis = Some ast_pol_mgga_c_kcis.
Proof. apply by_fast. vm_cast_no_check (eq_refl (Some ast_pol_mgga_c_kcis)). Qed.
Definition ast_unpol_mgga_c_kcis : program := Eval vm_compute in from_some (generated_fast unpol_mgga_c_kcis).
Lemma gen_unpol_mgga_c_kcis : generated unpol_mgga_c_kcis = Some ast_unpol_mgga_c_kcis.
Proof. apply by_fast. vm_cast_no_check (eq_refl (Some ast_unpol_mgga_c_kcis)). Qed.
Definition ast_pol_mgga_c_kcisk : program := Eval vm_compute in from_some (generated_fast pol_mgga_c_kcisk).
Lemma gen_pol_mgga_c_kcisk : generated pol_mgga_c_kcisk = Some ast_pol_mgga_c_kcisk.
Proof. apply by_fast. vm_cast_no_check (eq_refl (Some ast_pol_mgga_c_kcisk)). Qed.
Definition ast_unpol_mgga_c_kcisk : program := Eval vm_compute in from_some (generated_fast unpol_mgga_c_kcisk).
Lemma gen_unpol_mgga_c_kcisk : generated unpol_mgga_c_kcisk = Some ast_unpol_mgga_c_kcisk.
Proof. apply by_fast. vm_cast_no_check (eq_refl (Some ast_unpol_mgga_c_kcisk)). Qed.
