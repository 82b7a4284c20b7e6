(* Generated by tools/gen_src.py: the table of all generated programs. *)
From Coq Require Import List.
From Verif Require Import Bytes Syntax Parser PostProcess Src Ast1 Ast2 Ast3 Ast4 Ast5 Ast6 Ast7.
Import ListNotations.

Record compiled := Compiled {
  c_src : source; c_pol : program; c_unpol : program;
  c_pol_ok : generated (src_pol c_src) = Some c_pol;
  c_unpol_ok : generated (src_unpol c_src) = Some c_unpol }.

Definition a_gga_c_acgga : compiled :=
  Compiled f_gga_c_acgga ast_pol_gga_c_acgga ast_unpol_gga_c_acgga gen_pol_gga_c_acgga gen_unpol_gga_c_acgga.
Definition a_gga_c_acggap : compiled :=
  Compiled f_gga_c_acggap ast_pol_gga_c_acggap ast_unpol_gga_c_acggap gen_pol_gga_c_acggap gen_unpol_gga_c_acggap.
Definition a_gga_c_am05 : compiled :=
  Compiled f_gga_c_am05 ast_pol_gga_c_am05 ast_unpol_gga_c_am05 gen_pol_gga_c_am05 gen_unpol_gga_c_am05.
Definition a_gga_c_bmk : compiled :=
  Compiled f_gga_c_bmk ast_pol_gga_c_bmk ast_unpol_gga_c_bmk gen_pol_gga_c_bmk gen_unpol_gga_c_bmk.
Definition a_gga_c_ccdf : compiled :=
  Compiled f_gga_c_ccdf ast_pol_gga_c_ccdf ast_unpol_gga_c_ccdf gen_pol_gga_c_ccdf gen_unpol_gga_c_ccdf.
Definition a_gga_c_chachiyo : compiled :=
  Compiled f_gga_c_chachiyo ast_pol_gga_c_chachiyo ast_unpol_gga_c_chachiyo gen_pol_gga_c_chachiyo gen_unpol_gga_c_chachiyo.
Definition a_gga_c_cs1 : compiled :=
  Compiled f_gga_c_cs1 ast_pol_gga_c_cs1 ast_unpol_gga_c_cs1 gen_pol_gga_c_cs1 gen_unpol_gga_c_cs1.
Definition a_gga_c_ft97 : compiled :=
  Compiled f_gga_c_ft97 ast_pol_gga_c_ft97 ast_unpol_gga_c_ft97 gen_pol_gga_c_ft97 gen_unpol_gga_c_ft97.
Definition a_gga_c_gapc : compiled :=
  Compiled f_gga_c_gapc ast_pol_gga_c_gapc ast_unpol_gga_c_gapc gen_pol_gga_c_gapc gen_unpol_gga_c_gapc.
Definition a_gga_c_gaploc : compiled :=
  Compiled f_gga_c_gaploc ast_pol_gga_c_gaploc ast_unpol_gga_c_gaploc gen_pol_gga_c_gaploc gen_unpol_gga_c_gaploc.
Definition a_gga_c_hcth_a : compiled :=
  Compiled f_gga_c_hcth_a ast_pol_gga_c_hcth_a ast_unpol_gga_c_hcth_a gen_pol_gga_c_hcth_a gen_unpol_gga_c_hcth_a.
Definition a_gga_c_lm : compiled :=
  Compiled f_gga_c_lm ast_pol_gga_c_lm ast_unpol_gga_c_lm gen_pol_gga_c_lm gen_unpol_gga_c_lm.
Definition a_gga_c_lyp : compiled :=
  Compiled f_gga_c_lyp ast_pol_gga_c_lyp ast_unpol_gga_c_lyp gen_pol_gga_c_lyp gen_unpol_gga_c_lyp.
Definition a_gga_c_lypr : compiled :=
  Compiled f_gga_c_lypr ast_pol_gga_c_lypr ast_unpol_gga_c_lypr gen_pol_gga_c_lypr gen_unpol_gga_c_lypr.
Definition a_gga_c_op_b88 : compiled :=
  Compiled f_gga_c_op_b88 ast_pol_gga_c_op_b88 ast_unpol_gga_c_op_b88 gen_pol_gga_c_op_b88 gen_unpol_gga_c_op_b88.
Definition a_gga_c_op_g96 : compiled :=
  Compiled f_gga_c_op_g96 ast_pol_gga_c_op_g96 ast_unpol_gga_c_op_g96 gen_pol_gga_c_op_g96 gen_unpol_gga_c_op_g96.
Definition a_gga_c_op_pbe : compiled :=
  Compiled f_gga_c_op_pbe ast_pol_gga_c_op_pbe ast_unpol_gga_c_op_pbe gen_pol_gga_c_op_pbe gen_unpol_gga_c_op_pbe.
Definition a_gga_c_op_pw91 : compiled :=
  Compiled f_gga_c_op_pw91 ast_pol_gga_c_op_pw91 ast_unpol_gga_c_op_pw91 gen_pol_gga_c_op_pw91 gen_unpol_gga_c_op_pw91.
Definition a_gga_c_op_xalpha : compiled :=
  Compiled f_gga_c_op_xalpha ast_pol_gga_c_op_xalpha ast_unpol_gga_c_op_xalpha gen_pol_gga_c_op_xalpha gen_unpol_gga_c_op_xalpha.
Definition a_gga_c_optc : compiled :=
  Compiled f_gga_c_optc ast_pol_gga_c_optc ast_unpol_gga_c_optc gen_pol_gga_c_optc gen_unpol_gga_c_optc.
Definition a_gga_c_p86 : compiled :=
  Compiled f_gga_c_p86 ast_pol_gga_c_p86 ast_unpol_gga_c_p86 gen_pol_gga_c_p86 gen_unpol_gga_c_p86.
Definition a_gga_c_p86vwn : compiled :=
  Compiled f_gga_c_p86vwn ast_pol_gga_c_p86vwn ast_unpol_gga_c_p86vwn gen_pol_gga_c_p86vwn gen_unpol_gga_c_p86vwn.
Definition a_gga_c_pbe : compiled :=
  Compiled f_gga_c_pbe ast_pol_gga_c_pbe ast_unpol_gga_c_pbe gen_pol_gga_c_pbe gen_unpol_gga_c_pbe.
Definition a_gga_c_pbe_vwn : compiled :=
  Compiled f_gga_c_pbe_vwn ast_pol_gga_c_pbe_vwn ast_unpol_gga_c_pbe_vwn gen_pol_gga_c_pbe_vwn gen_unpol_gga_c_pbe_vwn.
Definition a_gga_c_pbeloc : compiled :=
  Compiled f_gga_c_pbeloc ast_pol_gga_c_pbeloc ast_unpol_gga_c_pbeloc gen_pol_gga_c_pbeloc gen_unpol_gga_c_pbeloc.
Definition a_gga_c_pw91 : compiled :=
  Compiled f_gga_c_pw91 ast_pol_gga_c_pw91 ast_unpol_gga_c_pw91 gen_pol_gga_c_pw91 gen_unpol_gga_c_pw91.
Definition a_gga_c_q2d : compiled :=
  Compiled f_gga_c_q2d ast_pol_gga_c_q2d ast_unpol_gga_c_q2d gen_pol_gga_c_q2d gen_unpol_gga_c_q2d.
Definition a_gga_c_regtpss : compiled :=
  Compiled f_gga_c_regtpss ast_pol_gga_c_regtpss ast_unpol_gga_c_regtpss gen_pol_gga_c_regtpss gen_unpol_gga_c_regtpss.
Definition a_gga_c_revtca : compiled :=
  Compiled f_gga_c_revtca ast_pol_gga_c_revtca ast_unpol_gga_c_revtca gen_pol_gga_c_revtca gen_unpol_gga_c_revtca.
Definition a_gga_c_scan_e0 : compiled :=
  Compiled f_gga_c_scan_e0 ast_pol_gga_c_scan_e0 ast_unpol_gga_c_scan_e0 gen_pol_gga_c_scan_e0 gen_unpol_gga_c_scan_e0.
Definition a_gga_c_sg4 : compiled :=
  Compiled f_gga_c_sg4 ast_pol_gga_c_sg4 ast_unpol_gga_c_sg4 gen_pol_gga_c_sg4 gen_unpol_gga_c_sg4.
Definition a_gga_c_sogga11 : compiled :=
  Compiled f_gga_c_sogga11 ast_pol_gga_c_sogga11 ast_unpol_gga_c_sogga11 gen_pol_gga_c_sogga11 gen_unpol_gga_c_sogga11.
Definition a_gga_c_tca : compiled :=
  Compiled f_gga_c_tca ast_pol_gga_c_tca ast_unpol_gga_c_tca gen_pol_gga_c_tca gen_unpol_gga_c_tca.
Definition a_gga_c_w94 : compiled :=
  Compiled f_gga_c_w94 ast_pol_gga_c_w94 ast_unpol_gga_c_w94 gen_pol_gga_c_w94 gen_unpol_gga_c_w94.
Definition a_gga_c_wi : compiled :=
  Compiled f_gga_c_wi ast_pol_gga_c_wi ast_unpol_gga_c_wi gen_pol_gga_c_wi gen_unpol_gga_c_wi.
Definition a_gga_c_wl : compiled :=
  Compiled f_gga_c_wl ast_pol_gga_c_wl ast_unpol_gga_c_wl gen_pol_gga_c_wl gen_unpol_gga_c_wl.
Definition a_gga_c_zpbeint : compiled :=
  Compiled f_gga_c_zpbeint ast_pol_gga_c_zpbeint ast_unpol_gga_c_zpbeint gen_pol_gga_c_zpbeint gen_unpol_gga_c_zpbeint.
Definition a_gga_c_zvpbeint : compiled :=
  Compiled f_gga_c_zvpbeint ast_pol_gga_c_zvpbeint ast_unpol_gga_c_zvpbeint gen_pol_gga_c_zvpbeint gen_unpol_gga_c_zvpbeint.
Definition a_gga_c_zvpbeloc : compiled :=
  Compiled f_gga_c_zvpbeloc ast_pol_gga_c_zvpbeloc ast_unpol_gga_c_zvpbeloc gen_pol_gga_c_zvpbeloc gen_unpol_gga_c_zvpbeloc.
Definition a_gga_k_apbe : compiled :=
  Compiled f_gga_k_apbe ast_pol_gga_k_apbe ast_unpol_gga_k_apbe gen_pol_gga_k_apbe gen_unpol_gga_k_apbe.
Definition a_gga_k_apbeint : compiled :=
  Compiled f_gga_k_apbeint ast_pol_gga_k_apbeint ast_unpol_gga_k_apbeint gen_pol_gga_k_apbeint gen_unpol_gga_k_apbeint.
Definition a_gga_k_dk : compiled :=
  Compiled f_gga_k_dk ast_pol_gga_k_dk ast_unpol_gga_k_dk gen_pol_gga_k_dk gen_unpol_gga_k_dk.
Definition a_gga_k_exp4 : compiled :=
  Compiled f_gga_k_exp4 ast_pol_gga_k_exp4 ast_unpol_gga_k_exp4 gen_pol_gga_k_exp4 gen_unpol_gga_k_exp4.
Definition a_gga_k_lc94 : compiled :=
  Compiled f_gga_k_lc94 ast_pol_gga_k_lc94 ast_unpol_gga_k_lc94 gen_pol_gga_k_lc94 gen_unpol_gga_k_lc94.
Definition a_gga_k_lgap : compiled :=
  Compiled f_gga_k_lgap ast_pol_gga_k_lgap ast_unpol_gga_k_lgap gen_pol_gga_k_lgap gen_unpol_gga_k_lgap.
Definition a_gga_k_lgap_ge : compiled :=
  Compiled f_gga_k_lgap_ge ast_pol_gga_k_lgap_ge ast_unpol_gga_k_lgap_ge gen_pol_gga_k_lgap_ge gen_unpol_gga_k_lgap_ge.
Definition a_gga_k_lkt : compiled :=
  Compiled f_gga_k_lkt ast_pol_gga_k_lkt ast_unpol_gga_k_lkt gen_pol_gga_k_lkt gen_unpol_gga_k_lkt.
Definition a_gga_k_llp : compiled :=
  Compiled f_gga_k_llp ast_pol_gga_k_llp ast_unpol_gga_k_llp gen_pol_gga_k_llp gen_unpol_gga_k_llp.
Definition a_gga_k_meyer : compiled :=
  Compiled f_gga_k_meyer ast_pol_gga_k_meyer ast_unpol_gga_k_meyer gen_pol_gga_k_meyer gen_unpol_gga_k_meyer.
Definition a_gga_k_mpbe : compiled :=
  Compiled f_gga_k_mpbe ast_pol_gga_k_mpbe ast_unpol_gga_k_mpbe gen_pol_gga_k_mpbe gen_unpol_gga_k_mpbe.
Definition a_gga_k_ol1 : compiled :=
  Compiled f_gga_k_ol1 ast_pol_gga_k_ol1 ast_unpol_gga_k_ol1 gen_pol_gga_k_ol1 gen_unpol_gga_k_ol1.
Definition a_gga_k_ol2 : compiled :=
  Compiled f_gga_k_ol2 ast_pol_gga_k_ol2 ast_unpol_gga_k_ol2 gen_pol_gga_k_ol2 gen_unpol_gga_k_ol2.
Definition a_gga_k_pearson : compiled :=
  Compiled f_gga_k_pearson ast_pol_gga_k_pearson ast_unpol_gga_k_pearson gen_pol_gga_k_pearson gen_unpol_gga_k_pearson.
Definition a_gga_k_pg : compiled :=
  Compiled f_gga_k_pg ast_pol_gga_k_pg ast_unpol_gga_k_pg gen_pol_gga_k_pg gen_unpol_gga_k_pg.
Definition a_gga_k_pw86 : compiled :=
  Compiled f_gga_k_pw86 ast_pol_gga_k_pw86 ast_unpol_gga_k_pw86 gen_pol_gga_k_pw86 gen_unpol_gga_k_pw86.
Definition a_gga_k_rational_p : compiled :=
  Compiled f_gga_k_rational_p ast_pol_gga_k_rational_p ast_unpol_gga_k_rational_p gen_pol_gga_k_rational_p gen_unpol_gga_k_rational_p.
Definition a_gga_k_tflw : compiled :=
  Compiled f_gga_k_tflw ast_pol_gga_k_tflw ast_unpol_gga_k_tflw gen_pol_gga_k_tflw gen_unpol_gga_k_tflw.
Definition a_gga_k_thakkar : compiled :=
  Compiled f_gga_k_thakkar ast_pol_gga_k_thakkar ast_unpol_gga_k_thakkar gen_pol_gga_k_thakkar gen_unpol_gga_k_thakkar.
Definition a_gga_k_vt84f : compiled :=
  Compiled f_gga_k_vt84f ast_pol_gga_k_vt84f ast_unpol_gga_k_vt84f gen_pol_gga_k_vt84f gen_unpol_gga_k_vt84f.
Definition a_gga_x_2d_b86 : compiled :=
  Compiled f_gga_x_2d_b86 ast_pol_gga_x_2d_b86 ast_unpol_gga_x_2d_b86 gen_pol_gga_x_2d_b86 gen_unpol_gga_x_2d_b86.
Definition a_gga_x_2d_b86_mgc : compiled :=
  Compiled f_gga_x_2d_b86_mgc ast_pol_gga_x_2d_b86_mgc ast_unpol_gga_x_2d_b86_mgc gen_pol_gga_x_2d_b86_mgc gen_unpol_gga_x_2d_b86_mgc.
Definition a_gga_x_2d_b88 : compiled :=
  Compiled f_gga_x_2d_b88 ast_pol_gga_x_2d_b88 ast_unpol_gga_x_2d_b88 gen_pol_gga_x_2d_b88 gen_unpol_gga_x_2d_b88.
Definition a_gga_x_2d_pbe : compiled :=
  Compiled f_gga_x_2d_pbe ast_pol_gga_x_2d_pbe ast_unpol_gga_x_2d_pbe gen_pol_gga_x_2d_pbe gen_unpol_gga_x_2d_pbe.
Definition a_gga_x_airy : compiled :=
  Compiled f_gga_x_airy ast_pol_gga_x_airy ast_unpol_gga_x_airy gen_pol_gga_x_airy gen_unpol_gga_x_airy.
Definition a_gga_x_ak13 : compiled :=
  Compiled f_gga_x_ak13 ast_pol_gga_x_ak13 ast_unpol_gga_x_ak13 gen_pol_gga_x_ak13 gen_unpol_gga_x_ak13.
Definition a_gga_x_am05 : compiled :=
  Compiled f_gga_x_am05 ast_pol_gga_x_am05 ast_unpol_gga_x_am05 gen_pol_gga_x_am05 gen_unpol_gga_x_am05.
Definition a_gga_x_b86 : compiled :=
  Compiled f_gga_x_b86 ast_pol_gga_x_b86 ast_unpol_gga_x_b86 gen_pol_gga_x_b86 gen_unpol_gga_x_b86.
Definition a_gga_x_b88 : compiled :=
  Compiled f_gga_x_b88 ast_pol_gga_x_b88 ast_unpol_gga_x_b88 gen_pol_gga_x_b88 gen_unpol_gga_x_b88.
Definition a_gga_x_bayesian : compiled :=
  Compiled f_gga_x_bayesian ast_pol_gga_x_bayesian ast_unpol_gga_x_bayesian gen_pol_gga_x_bayesian gen_unpol_gga_x_bayesian.
Definition a_gga_x_beefvdw : compiled :=
  Compiled f_gga_x_beefvdw ast_pol_gga_x_beefvdw ast_unpol_gga_x_beefvdw gen_pol_gga_x_beefvdw gen_unpol_gga_x_beefvdw.
Definition a_gga_x_bpccac : compiled :=
  Compiled f_gga_x_bpccac ast_pol_gga_x_bpccac ast_unpol_gga_x_bpccac gen_pol_gga_x_bpccac gen_unpol_gga_x_bpccac.
Definition a_gga_x_c09x : compiled :=
  Compiled f_gga_x_c09x ast_pol_gga_x_c09x ast_unpol_gga_x_c09x gen_pol_gga_x_c09x gen_unpol_gga_x_c09x.
Definition a_gga_x_cap : compiled :=
  Compiled f_gga_x_cap ast_pol_gga_x_cap ast_unpol_gga_x_cap gen_pol_gga_x_cap gen_unpol_gga_x_cap.
Definition a_gga_x_chachiyo : compiled :=
  Compiled f_gga_x_chachiyo ast_pol_gga_x_chachiyo ast_unpol_gga_x_chachiyo gen_pol_gga_x_chachiyo gen_unpol_gga_x_chachiyo.
Definition a_gga_x_dk87 : compiled :=
  Compiled f_gga_x_dk87 ast_pol_gga_x_dk87 ast_unpol_gga_x_dk87 gen_pol_gga_x_dk87 gen_unpol_gga_x_dk87.
Definition a_gga_x_ev93 : compiled :=
  Compiled f_gga_x_ev93 ast_pol_gga_x_ev93 ast_unpol_gga_x_ev93 gen_pol_gga_x_ev93 gen_unpol_gga_x_ev93.
Definition a_gga_x_fd_lb94 : compiled :=
  Compiled f_gga_x_fd_lb94 ast_pol_gga_x_fd_lb94 ast_unpol_gga_x_fd_lb94 gen_pol_gga_x_fd_lb94 gen_unpol_gga_x_fd_lb94.
Definition a_gga_x_ft97 : compiled :=
  Compiled f_gga_x_ft97 ast_pol_gga_x_ft97 ast_unpol_gga_x_ft97 gen_pol_gga_x_ft97 gen_unpol_gga_x_ft97.
Definition a_gga_x_g96 : compiled :=
  Compiled f_gga_x_g96 ast_pol_gga_x_g96 ast_unpol_gga_x_g96 gen_pol_gga_x_g96 gen_unpol_gga_x_g96.
Definition a_gga_x_gg99 : compiled :=
  Compiled f_gga_x_gg99 ast_pol_gga_x_gg99 ast_unpol_gga_x_gg99 gen_pol_gga_x_gg99 gen_unpol_gga_x_gg99.
Definition a_gga_x_hcth_a : compiled :=
  Compiled f_gga_x_hcth_a ast_pol_gga_x_hcth_a ast_unpol_gga_x_hcth_a gen_pol_gga_x_hcth_a gen_unpol_gga_x_hcth_a.
Definition a_gga_x_herman : compiled :=
  Compiled f_gga_x_herman ast_pol_gga_x_herman ast_unpol_gga_x_herman gen_pol_gga_x_herman gen_unpol_gga_x_herman.
Definition a_gga_x_hjs : compiled :=
  Compiled f_gga_x_hjs ast_pol_gga_x_hjs ast_unpol_gga_x_hjs gen_pol_gga_x_hjs gen_unpol_gga_x_hjs.
Definition a_gga_x_hjs_b88_v2 : compiled :=
  Compiled f_gga_x_hjs_b88_v2 ast_pol_gga_x_hjs_b88_v2 ast_unpol_gga_x_hjs_b88_v2 gen_pol_gga_x_hjs_b88_v2 gen_unpol_gga_x_hjs_b88_v2.
Definition a_gga_x_htbs : compiled :=
  Compiled f_gga_x_htbs ast_pol_gga_x_htbs ast_unpol_gga_x_htbs gen_pol_gga_x_htbs gen_unpol_gga_x_htbs.
Definition a_gga_x_ityh : compiled :=
  Compiled f_gga_x_ityh ast_pol_gga_x_ityh ast_unpol_gga_x_ityh gen_pol_gga_x_ityh gen_unpol_gga_x_ityh.
Definition a_gga_x_ityh_optx : compiled :=
  Compiled f_gga_x_ityh_optx ast_pol_gga_x_ityh_optx ast_unpol_gga_x_ityh_optx gen_pol_gga_x_ityh_optx gen_unpol_gga_x_ityh_optx.
Definition a_gga_x_ityh_pbe : compiled :=
  Compiled f_gga_x_ityh_pbe ast_pol_gga_x_ityh_pbe ast_unpol_gga_x_ityh_pbe gen_pol_gga_x_ityh_pbe gen_unpol_gga_x_ityh_pbe.
Definition a_gga_x_kt : compiled :=
  Compiled f_gga_x_kt ast_pol_gga_x_kt ast_unpol_gga_x_kt gen_pol_gga_x_kt gen_unpol_gga_x_kt.
Definition a_gga_x_lag : compiled :=
  Compiled f_gga_x_lag ast_pol_gga_x_lag ast_unpol_gga_x_lag gen_pol_gga_x_lag gen_unpol_gga_x_lag.
Definition a_gga_x_lb : compiled :=
  Compiled f_gga_x_lb ast_pol_gga_x_lb ast_unpol_gga_x_lb gen_pol_gga_x_lb gen_unpol_gga_x_lb.
Definition a_gga_x_lg93 : compiled :=
  Compiled f_gga_x_lg93 ast_pol_gga_x_lg93 ast_unpol_gga_x_lg93 gen_pol_gga_x_lg93 gen_unpol_gga_x_lg93.
Definition a_gga_x_lspbe : compiled :=
  Compiled f_gga_x_lspbe ast_pol_gga_x_lspbe ast_unpol_gga_x_lspbe gen_pol_gga_x_lspbe gen_unpol_gga_x_lspbe.
Definition a_gga_x_lsrpbe : compiled :=
  Compiled f_gga_x_lsrpbe ast_pol_gga_x_lsrpbe ast_unpol_gga_x_lsrpbe gen_pol_gga_x_lsrpbe gen_unpol_gga_x_lsrpbe.
Definition a_gga_x_lv_rpw86 : compiled :=
  Compiled f_gga_x_lv_rpw86 ast_pol_gga_x_lv_rpw86 ast_unpol_gga_x_lv_rpw86 gen_pol_gga_x_lv_rpw86 gen_unpol_gga_x_lv_rpw86.
Definition a_gga_x_mpbe : compiled :=
  Compiled f_gga_x_mpbe ast_pol_gga_x_mpbe ast_unpol_gga_x_mpbe gen_pol_gga_x_mpbe gen_unpol_gga_x_mpbe.
Definition a_gga_x_n12 : compiled :=
  Compiled f_gga_x_n12 ast_pol_gga_x_n12 ast_unpol_gga_x_n12 gen_pol_gga_x_n12 gen_unpol_gga_x_n12.
Definition a_gga_x_ncap : compiled :=
  Compiled f_gga_x_ncap ast_pol_gga_x_ncap ast_unpol_gga_x_ncap gen_pol_gga_x_ncap gen_unpol_gga_x_ncap.
Definition a_gga_x_ol2 : compiled :=
  Compiled f_gga_x_ol2 ast_pol_gga_x_ol2 ast_unpol_gga_x_ol2 gen_pol_gga_x_ol2 gen_unpol_gga_x_ol2.
Definition a_gga_x_optx : compiled :=
  Compiled f_gga_x_optx ast_pol_gga_x_optx ast_unpol_gga_x_optx gen_pol_gga_x_optx gen_unpol_gga_x_optx.
Definition a_gga_x_pbe : compiled :=
  Compiled f_gga_x_pbe ast_pol_gga_x_pbe ast_unpol_gga_x_pbe gen_pol_gga_x_pbe gen_unpol_gga_x_pbe.
Definition a_gga_x_pbea : compiled :=
  Compiled f_gga_x_pbea ast_pol_gga_x_pbea ast_unpol_gga_x_pbea gen_pol_gga_x_pbea gen_unpol_gga_x_pbea.
Definition a_gga_x_pbeint : compiled :=
  Compiled f_gga_x_pbeint ast_pol_gga_x_pbeint ast_unpol_gga_x_pbeint gen_pol_gga_x_pbeint gen_unpol_gga_x_pbeint.
Definition a_gga_x_pbepow : compiled :=
  Compiled f_gga_x_pbepow ast_pol_gga_x_pbepow ast_unpol_gga_x_pbepow gen_pol_gga_x_pbepow gen_unpol_gga_x_pbepow.
Definition a_gga_x_pbetrans : compiled :=
  Compiled f_gga_x_pbetrans ast_pol_gga_x_pbetrans ast_unpol_gga_x_pbetrans gen_pol_gga_x_pbetrans gen_unpol_gga_x_pbetrans.
Definition a_gga_x_pw86 : compiled :=
  Compiled f_gga_x_pw86 ast_pol_gga_x_pw86 ast_unpol_gga_x_pw86 gen_pol_gga_x_pw86 gen_unpol_gga_x_pw86.
Definition a_gga_x_pw91 : compiled :=
  Compiled f_gga_x_pw91 ast_pol_gga_x_pw91 ast_unpol_gga_x_pw91 gen_pol_gga_x_pw91 gen_unpol_gga_x_pw91.
Definition a_gga_x_q1d : compiled :=
  Compiled f_gga_x_q1d ast_pol_gga_x_q1d ast_unpol_gga_x_q1d gen_pol_gga_x_q1d gen_unpol_gga_x_q1d.
Definition a_gga_x_q2d : compiled :=
  Compiled f_gga_x_q2d ast_pol_gga_x_q2d ast_unpol_gga_x_q2d gen_pol_gga_x_q2d gen_unpol_gga_x_q2d.
Definition a_gga_x_rge2 : compiled :=
  Compiled f_gga_x_rge2 ast_pol_gga_x_rge2 ast_unpol_gga_x_rge2 gen_pol_gga_x_rge2 gen_unpol_gga_x_rge2.
Definition a_gga_x_rpbe : compiled :=
  Compiled f_gga_x_rpbe ast_pol_gga_x_rpbe ast_unpol_gga_x_rpbe gen_pol_gga_x_rpbe gen_unpol_gga_x_rpbe.
Definition a_gga_x_s12 : compiled :=
  Compiled f_gga_x_s12 ast_pol_gga_x_s12 ast_unpol_gga_x_s12 gen_pol_gga_x_s12 gen_unpol_gga_x_s12.
Definition a_gga_x_sfat : compiled :=
  Compiled f_gga_x_sfat ast_pol_gga_x_sfat ast_unpol_gga_x_sfat gen_pol_gga_x_sfat gen_unpol_gga_x_sfat.
Definition a_gga_x_sfat_pbe : compiled :=
  Compiled f_gga_x_sfat_pbe ast_pol_gga_x_sfat_pbe ast_unpol_gga_x_sfat_pbe gen_pol_gga_x_sfat_pbe gen_unpol_gga_x_sfat_pbe.
Definition a_gga_x_sg4 : compiled :=
  Compiled f_gga_x_sg4 ast_pol_gga_x_sg4 ast_unpol_gga_x_sg4 gen_pol_gga_x_sg4 gen_unpol_gga_x_sg4.
Definition a_gga_x_sogga11 : compiled :=
  Compiled f_gga_x_sogga11 ast_pol_gga_x_sogga11 ast_unpol_gga_x_sogga11 gen_pol_gga_x_sogga11 gen_unpol_gga_x_sogga11.
Definition a_gga_x_ssb_sw : compiled :=
  Compiled f_gga_x_ssb_sw ast_pol_gga_x_ssb_sw ast_unpol_gga_x_ssb_sw gen_pol_gga_x_ssb_sw gen_unpol_gga_x_ssb_sw.
Definition a_gga_x_vmt : compiled :=
  Compiled f_gga_x_vmt ast_pol_gga_x_vmt ast_unpol_gga_x_vmt gen_pol_gga_x_vmt gen_unpol_gga_x_vmt.
Definition a_gga_x_vmt84 : compiled :=
  Compiled f_gga_x_vmt84 ast_pol_gga_x_vmt84 ast_unpol_gga_x_vmt84 gen_pol_gga_x_vmt84 gen_unpol_gga_x_vmt84.
Definition a_gga_x_wc : compiled :=
  Compiled f_gga_x_wc ast_pol_gga_x_wc ast_unpol_gga_x_wc gen_pol_gga_x_wc gen_unpol_gga_x_wc.
Definition a_gga_x_wpbeh : compiled :=
  Compiled f_gga_x_wpbeh ast_pol_gga_x_wpbeh ast_unpol_gga_x_wpbeh gen_pol_gga_x_wpbeh gen_unpol_gga_x_wpbeh.
Definition a_gga_xc_b97 : compiled :=
  Compiled f_gga_xc_b97 ast_pol_gga_xc_b97 ast_unpol_gga_xc_b97 gen_pol_gga_xc_b97 gen_unpol_gga_xc_b97.
Definition a_gga_xc_th1 : compiled :=
  Compiled f_gga_xc_th1 ast_pol_gga_xc_th1 ast_unpol_gga_xc_th1 gen_pol_gga_xc_th1 gen_unpol_gga_xc_th1.
Definition a_gga_xc_th2 : compiled :=
  Compiled f_gga_xc_th2 ast_pol_gga_xc_th2 ast_unpol_gga_xc_th2 gen_pol_gga_xc_th2 gen_unpol_gga_xc_th2.
Definition a_gga_xc_th3 : compiled :=
  Compiled f_gga_xc_th3 ast_pol_gga_xc_th3 ast_unpol_gga_xc_th3 gen_pol_gga_xc_th3 gen_unpol_gga_xc_th3.
Definition a_hyb_gga_x_cam_s12 : compiled :=
  Compiled f_hyb_gga_x_cam_s12 ast_pol_hyb_gga_x_cam_s12 ast_unpol_hyb_gga_x_cam_s12 gen_pol_hyb_gga_x_cam_s12 gen_unpol_hyb_gga_x_cam_s12.
Definition a_hyb_gga_xc_case21 : compiled :=
  Compiled f_hyb_gga_xc_case21 ast_pol_hyb_gga_xc_case21 ast_unpol_hyb_gga_xc_case21 gen_pol_hyb_gga_xc_case21 gen_unpol_hyb_gga_xc_case21.
Definition a_hyb_gga_xc_wb97 : compiled :=
  Compiled f_hyb_gga_xc_wb97 ast_pol_hyb_gga_xc_wb97 ast_unpol_hyb_gga_xc_wb97 gen_pol_hyb_gga_xc_wb97 gen_unpol_hyb_gga_xc_wb97.
Definition a_hyb_lda_xc_bn05 : compiled :=
  Compiled f_hyb_lda_xc_bn05 ast_pol_hyb_lda_xc_bn05 ast_unpol_hyb_lda_xc_bn05 gen_pol_hyb_lda_xc_bn05 gen_unpol_hyb_lda_xc_bn05.
Definition a_hyb_mgga_x_dldf : compiled :=
  Compiled f_hyb_mgga_x_dldf ast_pol_hyb_mgga_x_dldf ast_unpol_hyb_mgga_x_dldf gen_pol_hyb_mgga_x_dldf gen_unpol_hyb_mgga_x_dldf.
Definition a_hyb_mgga_x_js18 : compiled :=
  Compiled f_hyb_mgga_x_js18 ast_pol_hyb_mgga_x_js18 ast_unpol_hyb_mgga_x_js18 gen_pol_hyb_mgga_x_js18 gen_unpol_hyb_mgga_x_js18.
Definition a_hyb_mgga_x_m05 : compiled :=
  Compiled f_hyb_mgga_x_m05 ast_pol_hyb_mgga_x_m05 ast_unpol_hyb_mgga_x_m05 gen_pol_hyb_mgga_x_m05 gen_unpol_hyb_mgga_x_m05.
Definition a_hyb_mgga_x_pjs18 : compiled :=
  Compiled f_hyb_mgga_x_pjs18 ast_pol_hyb_mgga_x_pjs18 ast_unpol_hyb_mgga_x_pjs18 gen_pol_hyb_mgga_x_pjs18 gen_unpol_hyb_mgga_x_pjs18.
Definition a_hyb_mgga_xc_wb97mv : compiled :=
  Compiled f_hyb_mgga_xc_wb97mv ast_pol_hyb_mgga_xc_wb97mv ast_unpol_hyb_mgga_xc_wb97mv gen_pol_hyb_mgga_xc_wb97mv gen_unpol_hyb_mgga_xc_wb97mv.
Definition a_lda_c_1d_csc : compiled :=
  Compiled f_lda_c_1d_csc ast_pol_lda_c_1d_csc ast_unpol_lda_c_1d_csc gen_pol_lda_c_1d_csc gen_unpol_lda_c_1d_csc.
Definition a_lda_c_1d_loos : compiled :=
  Compiled f_lda_c_1d_loos ast_pol_lda_c_1d_loos ast_unpol_lda_c_1d_loos gen_pol_lda_c_1d_loos gen_unpol_lda_c_1d_loos.
Definition a_lda_c_2d_amgb : compiled :=
  Compiled f_lda_c_2d_amgb ast_pol_lda_c_2d_amgb ast_unpol_lda_c_2d_amgb gen_pol_lda_c_2d_amgb gen_unpol_lda_c_2d_amgb.
Definition a_lda_c_2d_prm : compiled :=
  Compiled f_lda_c_2d_prm ast_pol_lda_c_2d_prm ast_unpol_lda_c_2d_prm gen_pol_lda_c_2d_prm gen_unpol_lda_c_2d_prm.
Definition a_lda_c_chachiyo : compiled :=
  Compiled f_lda_c_chachiyo ast_pol_lda_c_chachiyo ast_unpol_lda_c_chachiyo gen_pol_lda_c_chachiyo gen_unpol_lda_c_chachiyo.
Definition a_lda_c_chachiyo_mod : compiled :=
  Compiled f_lda_c_chachiyo_mod ast_pol_lda_c_chachiyo_mod ast_unpol_lda_c_chachiyo_mod gen_pol_lda_c_chachiyo_mod gen_unpol_lda_c_chachiyo_mod.
Definition a_lda_c_gk72 : compiled :=
  Compiled f_lda_c_gk72 ast_pol_lda_c_gk72 ast_unpol_lda_c_gk72 gen_pol_lda_c_gk72 gen_unpol_lda_c_gk72.
Definition a_lda_c_gombas : compiled :=
  Compiled f_lda_c_gombas ast_pol_lda_c_gombas ast_unpol_lda_c_gombas gen_pol_lda_c_gombas gen_unpol_lda_c_gombas.
Definition a_lda_c_hl : compiled :=
  Compiled f_lda_c_hl ast_pol_lda_c_hl ast_unpol_lda_c_hl gen_pol_lda_c_hl gen_unpol_lda_c_hl.
Definition a_lda_c_lp96 : compiled :=
  Compiled f_lda_c_lp96 ast_pol_lda_c_lp96 ast_unpol_lda_c_lp96 gen_pol_lda_c_lp96 gen_unpol_lda_c_lp96.
Definition a_lda_c_ml1 : compiled :=
  Compiled f_lda_c_ml1 ast_pol_lda_c_ml1 ast_unpol_lda_c_ml1 gen_pol_lda_c_ml1 gen_unpol_lda_c_ml1.
Definition a_lda_c_pk09 : compiled :=
  Compiled f_lda_c_pk09 ast_pol_lda_c_pk09 ast_unpol_lda_c_pk09 gen_pol_lda_c_pk09 gen_unpol_lda_c_pk09.
Definition a_lda_c_pmgb06 : compiled :=
  Compiled f_lda_c_pmgb06 ast_pol_lda_c_pmgb06 ast_unpol_lda_c_pmgb06 gen_pol_lda_c_pmgb06 gen_unpol_lda_c_pmgb06.
Definition a_lda_c_pw : compiled :=
  Compiled f_lda_c_pw ast_pol_lda_c_pw ast_unpol_lda_c_pw gen_pol_lda_c_pw gen_unpol_lda_c_pw.
Definition a_lda_c_pz : compiled :=
  Compiled f_lda_c_pz ast_pol_lda_c_pz ast_unpol_lda_c_pz gen_pol_lda_c_pz gen_unpol_lda_c_pz.
Definition a_lda_c_rc04 : compiled :=
  Compiled f_lda_c_rc04 ast_pol_lda_c_rc04 ast_unpol_lda_c_rc04 gen_pol_lda_c_rc04 gen_unpol_lda_c_rc04.
Definition a_lda_c_rpa : compiled :=
  Compiled f_lda_c_rpa ast_pol_lda_c_rpa ast_unpol_lda_c_rpa gen_pol_lda_c_rpa gen_unpol_lda_c_rpa.
Definition a_lda_c_vwn : compiled :=
  Compiled f_lda_c_vwn ast_pol_lda_c_vwn ast_unpol_lda_c_vwn gen_pol_lda_c_vwn gen_unpol_lda_c_vwn.
Definition a_lda_c_vwn_1 : compiled :=
  Compiled f_lda_c_vwn_1 ast_pol_lda_c_vwn_1 ast_unpol_lda_c_vwn_1 gen_pol_lda_c_vwn_1 gen_unpol_lda_c_vwn_1.
Definition a_lda_c_vwn_2 : compiled :=
  Compiled f_lda_c_vwn_2 ast_pol_lda_c_vwn_2 ast_unpol_lda_c_vwn_2 gen_pol_lda_c_vwn_2 gen_unpol_lda_c_vwn_2.
Definition a_lda_c_vwn_3 : compiled :=
  Compiled f_lda_c_vwn_3 ast_pol_lda_c_vwn_3 ast_unpol_lda_c_vwn_3 gen_pol_lda_c_vwn_3 gen_unpol_lda_c_vwn_3.
Definition a_lda_c_vwn_4 : compiled :=
  Compiled f_lda_c_vwn_4 ast_pol_lda_c_vwn_4 ast_unpol_lda_c_vwn_4 gen_pol_lda_c_vwn_4 gen_unpol_lda_c_vwn_4.
Definition a_lda_c_vwn_rpa : compiled :=
  Compiled f_lda_c_vwn_rpa ast_pol_lda_c_vwn_rpa ast_unpol_lda_c_vwn_rpa gen_pol_lda_c_vwn_rpa gen_unpol_lda_c_vwn_rpa.
Definition a_lda_c_w20 : compiled :=
  Compiled f_lda_c_w20 ast_pol_lda_c_w20 ast_unpol_lda_c_w20 gen_pol_lda_c_w20 gen_unpol_lda_c_w20.
Definition a_lda_c_wigner : compiled :=
  Compiled f_lda_c_wigner ast_pol_lda_c_wigner ast_unpol_lda_c_wigner gen_pol_lda_c_wigner gen_unpol_lda_c_wigner.
Definition a_lda_k_gds08_worker : compiled :=
  Compiled f_lda_k_gds08_worker ast_pol_lda_k_gds08_worker ast_unpol_lda_k_gds08_worker gen_pol_lda_k_gds08_worker gen_unpol_lda_k_gds08_worker.
Definition a_lda_k_tf : compiled :=
  Compiled f_lda_k_tf ast_pol_lda_k_tf ast_unpol_lda_k_tf gen_pol_lda_k_tf gen_unpol_lda_k_tf.
Definition a_lda_k_zlp : compiled :=
  Compiled f_lda_k_zlp ast_pol_lda_k_zlp ast_unpol_lda_k_zlp gen_pol_lda_k_zlp gen_unpol_lda_k_zlp.
Definition a_lda_x : compiled :=
  Compiled f_lda_x ast_pol_lda_x ast_unpol_lda_x gen_pol_lda_x gen_unpol_lda_x.
Definition a_lda_x_1d_exponential : compiled :=
  Compiled f_lda_x_1d_exponential ast_pol_lda_x_1d_exponential ast_unpol_lda_x_1d_exponential gen_pol_lda_x_1d_exponential gen_unpol_lda_x_1d_exponential.
Definition a_lda_x_1d_soft : compiled :=
  Compiled f_lda_x_1d_soft ast_pol_lda_x_1d_soft ast_unpol_lda_x_1d_soft gen_pol_lda_x_1d_soft gen_unpol_lda_x_1d_soft.
Definition a_lda_x_2d : compiled :=
  Compiled f_lda_x_2d ast_pol_lda_x_2d ast_unpol_lda_x_2d gen_pol_lda_x_2d gen_unpol_lda_x_2d.
Definition a_lda_x_erf : compiled :=
  Compiled f_lda_x_erf ast_pol_lda_x_erf ast_unpol_lda_x_erf gen_pol_lda_x_erf gen_unpol_lda_x_erf.
Definition a_lda_x_rel : compiled :=
  Compiled f_lda_x_rel ast_pol_lda_x_rel ast_unpol_lda_x_rel gen_pol_lda_x_rel gen_unpol_lda_x_rel.
Definition a_lda_x_sloc : compiled :=
  Compiled f_lda_x_sloc ast_pol_lda_x_sloc ast_unpol_lda_x_sloc gen_pol_lda_x_sloc gen_unpol_lda_x_sloc.
Definition a_lda_x_yukawa : compiled :=
  Compiled f_lda_x_yukawa ast_pol_lda_x_yukawa ast_unpol_lda_x_yukawa gen_pol_lda_x_yukawa gen_unpol_lda_x_yukawa.
Definition a_lda_xc_1d_ehwlrg : compiled :=
  Compiled f_lda_xc_1d_ehwlrg ast_pol_lda_xc_1d_ehwlrg ast_unpol_lda_xc_1d_ehwlrg gen_pol_lda_xc_1d_ehwlrg gen_unpol_lda_xc_1d_ehwlrg.
Definition a_lda_xc_ksdt : compiled :=
  Compiled f_lda_xc_ksdt ast_pol_lda_xc_ksdt ast_unpol_lda_xc_ksdt gen_pol_lda_xc_ksdt gen_unpol_lda_xc_ksdt.
Definition a_lda_xc_teter93 : compiled :=
  Compiled f_lda_xc_teter93 ast_pol_lda_xc_teter93 ast_unpol_lda_xc_teter93 gen_pol_lda_xc_teter93 gen_unpol_lda_xc_teter93.
Definition a_lda_xc_tih : compiled :=
  Compiled f_lda_xc_tih ast_pol_lda_xc_tih ast_unpol_lda_xc_tih gen_pol_lda_xc_tih gen_unpol_lda_xc_tih.
Definition a_lda_xc_zlp : compiled :=
  Compiled f_lda_xc_zlp ast_pol_lda_xc_zlp ast_unpol_lda_xc_zlp gen_pol_lda_xc_zlp gen_unpol_lda_xc_zlp.
Definition a_mgga_c_b88 : compiled :=
  Compiled f_mgga_c_b88 ast_pol_mgga_c_b88 ast_unpol_mgga_c_b88 gen_pol_mgga_c_b88 gen_unpol_mgga_c_b88.
Definition a_mgga_c_b94 : compiled :=
  Compiled f_mgga_c_b94 ast_pol_mgga_c_b94 ast_unpol_mgga_c_b94 gen_pol_mgga_c_b94 gen_unpol_mgga_c_b94.
Definition a_mgga_c_bc95 : compiled :=
  Compiled f_mgga_c_bc95 ast_pol_mgga_c_bc95 ast_unpol_mgga_c_bc95 gen_pol_mgga_c_bc95 gen_unpol_mgga_c_bc95.
Definition a_mgga_c_cc : compiled :=
  Compiled f_mgga_c_cc ast_pol_mgga_c_cc ast_unpol_mgga_c_cc gen_pol_mgga_c_cc gen_unpol_mgga_c_cc.
Definition a_mgga_c_ccalda : compiled :=
  Compiled f_mgga_c_ccalda ast_pol_mgga_c_ccalda ast_unpol_mgga_c_ccalda gen_pol_mgga_c_ccalda gen_unpol_mgga_c_ccalda.
Definition a_mgga_c_cs : compiled :=
  Compiled f_mgga_c_cs ast_pol_mgga_c_cs ast_unpol_mgga_c_cs gen_pol_mgga_c_cs gen_unpol_mgga_c_cs.
Definition a_mgga_c_kcis : compiled :=
  Compiled f_mgga_c_kcis ast_pol_mgga_c_kcis ast_unpol_mgga_c_kcis gen_pol_mgga_c_kcis gen_unpol_mgga_c_kcis.
Definition a_mgga_c_kcisk : compiled :=
  Compiled f_mgga_c_kcisk ast_pol_mgga_c_kcisk ast_unpol_mgga_c_kcisk gen_pol_mgga_c_kcisk gen_unpol_mgga_c_kcisk.
Definition a_mgga_c_ltapw : compiled :=
  Compiled f_mgga_c_ltapw ast_pol_mgga_c_ltapw ast_unpol_mgga_c_ltapw gen_pol_mgga_c_ltapw gen_unpol_mgga_c_ltapw.
Definition a_mgga_c_m05 : compiled :=
  Compiled f_mgga_c_m05 ast_pol_mgga_c_m05 ast_unpol_mgga_c_m05 gen_pol_mgga_c_m05 gen_unpol_mgga_c_m05.
Definition a_mgga_c_m06l : compiled :=
  Compiled f_mgga_c_m06l ast_pol_mgga_c_m06l ast_unpol_mgga_c_m06l gen_pol_mgga_c_m06l gen_unpol_mgga_c_m06l.
Definition a_mgga_c_m08 : compiled :=
  Compiled f_mgga_c_m08 ast_pol_mgga_c_m08 ast_unpol_mgga_c_m08 gen_pol_mgga_c_m08 gen_unpol_mgga_c_m08.
Definition a_mgga_c_pkzb : compiled :=
  Compiled f_mgga_c_pkzb ast_pol_mgga_c_pkzb ast_unpol_mgga_c_pkzb gen_pol_mgga_c_pkzb gen_unpol_mgga_c_pkzb.
Definition a_mgga_c_r2scan : compiled :=
  Compiled f_mgga_c_r2scan ast_pol_mgga_c_r2scan ast_unpol_mgga_c_r2scan gen_pol_mgga_c_r2scan gen_unpol_mgga_c_r2scan.
Definition a_mgga_c_revscan : compiled :=
  Compiled f_mgga_c_revscan ast_pol_mgga_c_revscan ast_unpol_mgga_c_revscan gen_pol_mgga_c_revscan gen_unpol_mgga_c_revscan.
Definition a_mgga_c_revtpss : compiled :=
  Compiled f_mgga_c_revtpss ast_pol_mgga_c_revtpss ast_unpol_mgga_c_revtpss gen_pol_mgga_c_revtpss gen_unpol_mgga_c_revtpss.
Definition a_mgga_c_rmggac : compiled :=
  Compiled f_mgga_c_rmggac ast_pol_mgga_c_rmggac ast_unpol_mgga_c_rmggac gen_pol_mgga_c_rmggac gen_unpol_mgga_c_rmggac.
Definition a_mgga_c_rppscan : compiled :=
  Compiled f_mgga_c_rppscan ast_pol_mgga_c_rppscan ast_unpol_mgga_c_rppscan gen_pol_mgga_c_rppscan gen_unpol_mgga_c_rppscan.
Definition a_mgga_c_rregtm : compiled :=
  Compiled f_mgga_c_rregtm ast_pol_mgga_c_rregtm ast_unpol_mgga_c_rregtm gen_pol_mgga_c_rregtm gen_unpol_mgga_c_rregtm.
Definition a_mgga_c_rscan : compiled :=
  Compiled f_mgga_c_rscan ast_pol_mgga_c_rscan ast_unpol_mgga_c_rscan gen_pol_mgga_c_rscan gen_unpol_mgga_c_rscan.
Definition a_mgga_c_scan : compiled :=
  Compiled f_mgga_c_scan ast_pol_mgga_c_scan ast_unpol_mgga_c_scan gen_pol_mgga_c_scan gen_unpol_mgga_c_scan.
Definition a_mgga_c_tpss : compiled :=
  Compiled f_mgga_c_tpss ast_pol_mgga_c_tpss ast_unpol_mgga_c_tpss gen_pol_mgga_c_tpss gen_unpol_mgga_c_tpss.
Definition a_mgga_c_tpssloc : compiled :=
  Compiled f_mgga_c_tpssloc ast_pol_mgga_c_tpssloc ast_unpol_mgga_c_tpssloc gen_pol_mgga_c_tpssloc gen_unpol_mgga_c_tpssloc.
Definition a_mgga_c_vsxc : compiled :=
  Compiled f_mgga_c_vsxc ast_pol_mgga_c_vsxc ast_unpol_mgga_c_vsxc gen_pol_mgga_c_vsxc gen_unpol_mgga_c_vsxc.
Definition a_mgga_k_csk : compiled :=
  Compiled f_mgga_k_csk ast_pol_mgga_k_csk ast_unpol_mgga_k_csk gen_pol_mgga_k_csk gen_unpol_mgga_k_csk.
Definition a_mgga_k_csk_loc : compiled :=
  Compiled f_mgga_k_csk_loc ast_pol_mgga_k_csk_loc ast_unpol_mgga_k_csk_loc gen_pol_mgga_k_csk_loc gen_unpol_mgga_k_csk_loc.
Definition a_mgga_k_gea2 : compiled :=
  Compiled f_mgga_k_gea2 ast_pol_mgga_k_gea2 ast_unpol_mgga_k_gea2 gen_pol_mgga_k_gea2 gen_unpol_mgga_k_gea2.
Definition a_mgga_k_gea4 : compiled :=
  Compiled f_mgga_k_gea4 ast_pol_mgga_k_gea4 ast_unpol_mgga_k_gea4 gen_pol_mgga_k_gea4 gen_unpol_mgga_k_gea4.
Definition a_mgga_k_lk : compiled :=
  Compiled f_mgga_k_lk ast_pol_mgga_k_lk ast_unpol_mgga_k_lk gen_pol_mgga_k_lk gen_unpol_mgga_k_lk.
Definition a_mgga_k_pc07 : compiled :=
  Compiled f_mgga_k_pc07 ast_pol_mgga_k_pc07 ast_unpol_mgga_k_pc07 gen_pol_mgga_k_pc07 gen_unpol_mgga_k_pc07.
Definition a_mgga_k_pgslb : compiled :=
  Compiled f_mgga_k_pgslb ast_pol_mgga_k_pgslb ast_unpol_mgga_k_pgslb gen_pol_mgga_k_pgslb gen_unpol_mgga_k_pgslb.
Definition a_mgga_k_rda : compiled :=
  Compiled f_mgga_k_rda ast_pol_mgga_k_rda ast_unpol_mgga_k_rda gen_pol_mgga_k_rda gen_unpol_mgga_k_rda.
Definition a_mgga_x_2d_js17 : compiled :=
  Compiled f_mgga_x_2d_js17 ast_pol_mgga_x_2d_js17 ast_unpol_mgga_x_2d_js17 gen_pol_mgga_x_2d_js17 gen_unpol_mgga_x_2d_js17.
Definition a_mgga_x_2d_prhg07 : compiled :=
  Compiled f_mgga_x_2d_prhg07 ast_pol_mgga_x_2d_prhg07 ast_unpol_mgga_x_2d_prhg07 gen_pol_mgga_x_2d_prhg07 gen_unpol_mgga_x_2d_prhg07.
Definition a_mgga_x_2d_prp10 : compiled :=
  Compiled f_mgga_x_2d_prp10 ast_pol_mgga_x_2d_prp10 ast_unpol_mgga_x_2d_prp10 gen_pol_mgga_x_2d_prp10 gen_unpol_mgga_x_2d_prp10.
Definition a_mgga_x_br89 : compiled :=
  Compiled f_mgga_x_br89 ast_pol_mgga_x_br89 ast_unpol_mgga_x_br89 gen_pol_mgga_x_br89 gen_unpol_mgga_x_br89.
Definition a_mgga_x_br89_explicit : compiled :=
  Compiled f_mgga_x_br89_explicit ast_pol_mgga_x_br89_explicit ast_unpol_mgga_x_br89_explicit gen_pol_mgga_x_br89_explicit gen_unpol_mgga_x_br89_explicit.
Definition a_mgga_x_edmgga : compiled :=
  Compiled f_mgga_x_edmgga ast_pol_mgga_x_edmgga ast_unpol_mgga_x_edmgga gen_pol_mgga_x_edmgga gen_unpol_mgga_x_edmgga.
Definition a_mgga_x_ft98 : compiled :=
  Compiled f_mgga_x_ft98 ast_pol_mgga_x_ft98 ast_unpol_mgga_x_ft98 gen_pol_mgga_x_ft98 gen_unpol_mgga_x_ft98.
Definition a_mgga_x_gdme : compiled :=
  Compiled f_mgga_x_gdme ast_pol_mgga_x_gdme ast_unpol_mgga_x_gdme gen_pol_mgga_x_gdme gen_unpol_mgga_x_gdme.
Definition a_mgga_x_gvt4 : compiled :=
  Compiled f_mgga_x_gvt4 ast_pol_mgga_x_gvt4 ast_unpol_mgga_x_gvt4 gen_pol_mgga_x_gvt4 gen_unpol_mgga_x_gvt4.
Definition a_mgga_x_gx : compiled :=
  Compiled f_mgga_x_gx ast_pol_mgga_x_gx ast_unpol_mgga_x_gx gen_pol_mgga_x_gx gen_unpol_mgga_x_gx.
Definition a_mgga_x_jk : compiled :=
  Compiled f_mgga_x_jk ast_pol_mgga_x_jk ast_unpol_mgga_x_jk gen_pol_mgga_x_jk gen_unpol_mgga_x_jk.
Definition a_mgga_x_lta : compiled :=
  Compiled f_mgga_x_lta ast_pol_mgga_x_lta ast_unpol_mgga_x_lta gen_pol_mgga_x_lta gen_unpol_mgga_x_lta.
Definition a_mgga_x_m06l : compiled :=
  Compiled f_mgga_x_m06l ast_pol_mgga_x_m06l ast_unpol_mgga_x_m06l gen_pol_mgga_x_m06l gen_unpol_mgga_x_m06l.
Definition a_mgga_x_m08 : compiled :=
  Compiled f_mgga_x_m08 ast_pol_mgga_x_m08 ast_unpol_mgga_x_m08 gen_pol_mgga_x_m08 gen_unpol_mgga_x_m08.
Definition a_mgga_x_m11 : compiled :=
  Compiled f_mgga_x_m11 ast_pol_mgga_x_m11 ast_unpol_mgga_x_m11 gen_pol_mgga_x_m11 gen_unpol_mgga_x_m11.
Definition a_mgga_x_m11_l : compiled :=
  Compiled f_mgga_x_m11_l ast_pol_mgga_x_m11_l ast_unpol_mgga_x_m11_l gen_pol_mgga_x_m11_l gen_unpol_mgga_x_m11_l.
Definition a_mgga_x_mbeef : compiled :=
  Compiled f_mgga_x_mbeef ast_pol_mgga_x_mbeef ast_unpol_mgga_x_mbeef gen_pol_mgga_x_mbeef gen_unpol_mgga_x_mbeef.
Definition a_mgga_x_mbeefvdw : compiled :=
  Compiled f_mgga_x_mbeefvdw ast_pol_mgga_x_mbeefvdw ast_unpol_mgga_x_mbeefvdw gen_pol_mgga_x_mbeefvdw gen_unpol_mgga_x_mbeefvdw.
Definition a_mgga_x_mbr : compiled :=
  Compiled f_mgga_x_mbr ast_pol_mgga_x_mbr ast_unpol_mgga_x_mbr gen_pol_mgga_x_mbr gen_unpol_mgga_x_mbr.
Definition a_mgga_x_mbrxc_bg : compiled :=
  Compiled f_mgga_x_mbrxc_bg ast_pol_mgga_x_mbrxc_bg ast_unpol_mgga_x_mbrxc_bg gen_pol_mgga_x_mbrxc_bg gen_unpol_mgga_x_mbrxc_bg.
Definition a_mgga_x_mbrxh_bg : compiled :=
  Compiled f_mgga_x_mbrxh_bg ast_pol_mgga_x_mbrxh_bg ast_unpol_mgga_x_mbrxh_bg gen_pol_mgga_x_mbrxh_bg gen_unpol_mgga_x_mbrxh_bg.
Definition a_mgga_x_mcml : compiled :=
  Compiled f_mgga_x_mcml ast_pol_mgga_x_mcml ast_unpol_mgga_x_mcml gen_pol_mgga_x_mcml gen_unpol_mgga_x_mcml.
Definition a_mgga_x_mggac : compiled :=
  Compiled f_mgga_x_mggac ast_pol_mgga_x_mggac ast_unpol_mgga_x_mggac gen_pol_mgga_x_mggac gen_unpol_mgga_x_mggac.
Definition a_mgga_x_mn12 : compiled :=
  Compiled f_mgga_x_mn12 ast_pol_mgga_x_mn12 ast_unpol_mgga_x_mn12 gen_pol_mgga_x_mn12 gen_unpol_mgga_x_mn12.
Definition a_mgga_x_ms : compiled :=
  Compiled f_mgga_x_ms ast_pol_mgga_x_ms ast_unpol_mgga_x_ms gen_pol_mgga_x_ms gen_unpol_mgga_x_ms.
Definition a_mgga_x_msb : compiled :=
  Compiled f_mgga_x_msb ast_pol_mgga_x_msb ast_unpol_mgga_x_msb gen_pol_mgga_x_msb gen_unpol_mgga_x_msb.
Definition a_mgga_x_mvs : compiled :=
  Compiled f_mgga_x_mvs ast_pol_mgga_x_mvs ast_unpol_mgga_x_mvs gen_pol_mgga_x_mvs gen_unpol_mgga_x_mvs.
Definition a_mgga_x_mvsb : compiled :=
  Compiled f_mgga_x_mvsb ast_pol_mgga_x_mvsb ast_unpol_mgga_x_mvsb gen_pol_mgga_x_mvsb gen_unpol_mgga_x_mvsb.
Definition a_mgga_x_pbe_gx : compiled :=
  Compiled f_mgga_x_pbe_gx ast_pol_mgga_x_pbe_gx ast_unpol_mgga_x_pbe_gx gen_pol_mgga_x_pbe_gx gen_unpol_mgga_x_pbe_gx.
Definition a_mgga_x_pkzb : compiled :=
  Compiled f_mgga_x_pkzb ast_pol_mgga_x_pkzb ast_unpol_mgga_x_pkzb gen_pol_mgga_x_pkzb gen_unpol_mgga_x_pkzb.
Definition a_mgga_x_r2scan : compiled :=
  Compiled f_mgga_x_r2scan ast_pol_mgga_x_r2scan ast_unpol_mgga_x_r2scan gen_pol_mgga_x_r2scan gen_unpol_mgga_x_r2scan.
Definition a_mgga_x_r4scan : compiled :=
  Compiled f_mgga_x_r4scan ast_pol_mgga_x_r4scan ast_unpol_mgga_x_r4scan gen_pol_mgga_x_r4scan gen_unpol_mgga_x_r4scan.
Definition a_mgga_x_regtm : compiled :=
  Compiled f_mgga_x_regtm ast_pol_mgga_x_regtm ast_unpol_mgga_x_regtm gen_pol_mgga_x_regtm gen_unpol_mgga_x_regtm.
Definition a_mgga_x_regtpss : compiled :=
  Compiled f_mgga_x_regtpss ast_pol_mgga_x_regtpss ast_unpol_mgga_x_regtpss gen_pol_mgga_x_regtpss gen_unpol_mgga_x_regtpss.
Definition a_mgga_x_revtm : compiled :=
  Compiled f_mgga_x_revtm ast_pol_mgga_x_revtm ast_unpol_mgga_x_revtm gen_pol_mgga_x_revtm gen_unpol_mgga_x_revtm.
Definition a_mgga_x_rlda : compiled :=
  Compiled f_mgga_x_rlda ast_pol_mgga_x_rlda ast_unpol_mgga_x_rlda gen_pol_mgga_x_rlda gen_unpol_mgga_x_rlda.
Definition a_mgga_x_rppscan : compiled :=
  Compiled f_mgga_x_rppscan ast_pol_mgga_x_rppscan ast_unpol_mgga_x_rppscan gen_pol_mgga_x_rppscan gen_unpol_mgga_x_rppscan.
Definition a_mgga_x_rscan : compiled :=
  Compiled f_mgga_x_rscan ast_pol_mgga_x_rscan ast_unpol_mgga_x_rscan gen_pol_mgga_x_rscan gen_unpol_mgga_x_rscan.
Definition a_mgga_x_rtpss : compiled :=
  Compiled f_mgga_x_rtpss ast_pol_mgga_x_rtpss ast_unpol_mgga_x_rtpss gen_pol_mgga_x_rtpss gen_unpol_mgga_x_rtpss.
Definition a_mgga_x_sa_tpss : compiled :=
  Compiled f_mgga_x_sa_tpss ast_pol_mgga_x_sa_tpss ast_unpol_mgga_x_sa_tpss gen_pol_mgga_x_sa_tpss gen_unpol_mgga_x_sa_tpss.
Definition a_mgga_x_scan : compiled :=
  Compiled f_mgga_x_scan ast_pol_mgga_x_scan ast_unpol_mgga_x_scan gen_pol_mgga_x_scan gen_unpol_mgga_x_scan.
Definition a_mgga_x_task : compiled :=
  Compiled f_mgga_x_task ast_pol_mgga_x_task ast_unpol_mgga_x_task gen_pol_mgga_x_task gen_unpol_mgga_x_task.
Definition a_mgga_x_tau_hcth : compiled :=
  Compiled f_mgga_x_tau_hcth ast_pol_mgga_x_tau_hcth ast_unpol_mgga_x_tau_hcth gen_pol_mgga_x_tau_hcth gen_unpol_mgga_x_tau_hcth.
Definition a_mgga_x_tb09 : compiled :=
  Compiled f_mgga_x_tb09 ast_pol_mgga_x_tb09 ast_unpol_mgga_x_tb09 gen_pol_mgga_x_tb09 gen_unpol_mgga_x_tb09.
Definition a_mgga_x_th : compiled :=
  Compiled f_mgga_x_th ast_pol_mgga_x_th ast_unpol_mgga_x_th gen_pol_mgga_x_th gen_unpol_mgga_x_th.
Definition a_mgga_x_tm : compiled :=
  Compiled f_mgga_x_tm ast_pol_mgga_x_tm ast_unpol_mgga_x_tm gen_pol_mgga_x_tm gen_unpol_mgga_x_tm.
Definition a_mgga_x_tpss : compiled :=
  Compiled f_mgga_x_tpss ast_pol_mgga_x_tpss ast_unpol_mgga_x_tpss gen_pol_mgga_x_tpss gen_unpol_mgga_x_tpss.
Definition a_mgga_x_vcml : compiled :=
  Compiled f_mgga_x_vcml ast_pol_mgga_x_vcml ast_unpol_mgga_x_vcml gen_pol_mgga_x_vcml gen_unpol_mgga_x_vcml.
Definition a_mgga_x_vt84 : compiled :=
  Compiled f_mgga_x_vt84 ast_pol_mgga_x_vt84 ast_unpol_mgga_x_vt84 gen_pol_mgga_x_vt84 gen_unpol_mgga_x_vt84.
Definition a_mgga_xc_b97mv : compiled :=
  Compiled f_mgga_xc_b97mv ast_pol_mgga_xc_b97mv ast_unpol_mgga_xc_b97mv gen_pol_mgga_xc_b97mv gen_unpol_mgga_xc_b97mv.
Definition a_mgga_xc_b98 : compiled :=
  Compiled f_mgga_xc_b98 ast_pol_mgga_xc_b98 ast_unpol_mgga_xc_b98 gen_pol_mgga_xc_b98 gen_unpol_mgga_xc_b98.
Definition a_mgga_xc_cc06 : compiled :=
  Compiled f_mgga_xc_cc06 ast_pol_mgga_xc_cc06 ast_unpol_mgga_xc_cc06 gen_pol_mgga_xc_cc06 gen_unpol_mgga_xc_cc06.
Definition a_mgga_xc_lp90 : compiled :=
  Compiled f_mgga_xc_lp90 ast_pol_mgga_xc_lp90 ast_unpol_mgga_xc_lp90 gen_pol_mgga_xc_lp90 gen_unpol_mgga_xc_lp90.
Definition a_mgga_xc_zlp : compiled :=
  Compiled f_mgga_xc_zlp ast_pol_mgga_xc_zlp ast_unpol_mgga_xc_zlp gen_pol_mgga_xc_zlp gen_unpol_mgga_xc_zlp.

Definition all_compiled : list compiled := [
  a_gga_c_acgga;
  a_gga_c_acggap;
  a_gga_c_am05;
  a_gga_c_bmk;
  a_gga_c_ccdf;
  a_gga_c_chachiyo;
  a_gga_c_cs1;
  a_gga_c_ft97;
  a_gga_c_gapc;
  a_gga_c_gaploc;
  a_gga_c_hcth_a;
  a_gga_c_lm;
  a_gga_c_lyp;
  a_gga_c_lypr;
  a_gga_c_op_b88;
  a_gga_c_op_g96;
  a_gga_c_op_pbe;
  a_gga_c_op_pw91;
  a_gga_c_op_xalpha;
  a_gga_c_optc;
  a_gga_c_p86;
  a_gga_c_p86vwn;
  a_gga_c_pbe;
  a_gga_c_pbe_vwn;
  a_gga_c_pbeloc;
  a_gga_c_pw91;
  a_gga_c_q2d;
  a_gga_c_regtpss;
  a_gga_c_revtca;
  a_gga_c_scan_e0;
  a_gga_c_sg4;
  a_gga_c_sogga11;
  a_gga_c_tca;
  a_gga_c_w94;
  a_gga_c_wi;
  a_gga_c_wl;
  a_gga_c_zpbeint;
  a_gga_c_zvpbeint;
  a_gga_c_zvpbeloc;
  a_gga_k_apbe;
  a_gga_k_apbeint;
  a_gga_k_dk;
  a_gga_k_exp4;
  a_gga_k_lc94;
  a_gga_k_lgap;
  a_gga_k_lgap_ge;
  a_gga_k_lkt;
  a_gga_k_llp;
  a_gga_k_meyer;
  a_gga_k_mpbe;
  a_gga_k_ol1;
  a_gga_k_ol2;
  a_gga_k_pearson;
  a_gga_k_pg;
  a_gga_k_pw86;
  a_gga_k_rational_p;
  a_gga_k_tflw;
  a_gga_k_thakkar;
  a_gga_k_vt84f;
  a_gga_x_2d_b86;
  a_gga_x_2d_b86_mgc;
  a_gga_x_2d_b88;
  a_gga_x_2d_pbe;
  a_gga_x_airy;
  a_gga_x_ak13;
  a_gga_x_am05;
  a_gga_x_b86;
  a_gga_x_b88;
  a_gga_x_bayesian;
  a_gga_x_beefvdw;
  a_gga_x_bpccac;
  a_gga_x_c09x;
  a_gga_x_cap;
  a_gga_x_chachiyo;
  a_gga_x_dk87;
  a_gga_x_ev93;
  a_gga_x_fd_lb94;
  a_gga_x_ft97;
  a_gga_x_g96;
  a_gga_x_gg99;
  a_gga_x_hcth_a;
  a_gga_x_herman;
  a_gga_x_hjs;
  a_gga_x_hjs_b88_v2;
  a_gga_x_htbs;
  a_gga_x_ityh;
  a_gga_x_ityh_optx;
  a_gga_x_ityh_pbe;
  a_gga_x_kt;
  a_gga_x_lag;
  a_gga_x_lb;
  a_gga_x_lg93;
  a_gga_x_lspbe;
  a_gga_x_lsrpbe;
  a_gga_x_lv_rpw86;
  a_gga_x_mpbe;
  a_gga_x_n12;
  a_gga_x_ncap;
  a_gga_x_ol2;
  a_gga_x_optx;
  a_gga_x_pbe;
  a_gga_x_pbea;
  a_gga_x_pbeint;
  a_gga_x_pbepow;
  a_gga_x_pbetrans;
  a_gga_x_pw86;
  a_gga_x_pw91;
  a_gga_x_q1d;
  a_gga_x_q2d;
  a_gga_x_rge2;
  a_gga_x_rpbe;
  a_gga_x_s12;
  a_gga_x_sfat;
  a_gga_x_sfat_pbe;
  a_gga_x_sg4;
  a_gga_x_sogga11;
  a_gga_x_ssb_sw;
  a_gga_x_vmt;
  a_gga_x_vmt84;
  a_gga_x_wc;
  a_gga_x_wpbeh;
  a_gga_xc_b97;
  a_gga_xc_th1;
  a_gga_xc_th2;
  a_gga_xc_th3;
  a_hyb_gga_x_cam_s12;
  a_hyb_gga_xc_case21;
  a_hyb_gga_xc_wb97;
  a_hyb_lda_xc_bn05;
  a_hyb_mgga_x_dldf;
  a_hyb_mgga_x_js18;
  a_hyb_mgga_x_m05;
  a_hyb_mgga_x_pjs18;
  a_hyb_mgga_xc_wb97mv;
  a_lda_c_1d_csc;
  a_lda_c_1d_loos;
  a_lda_c_2d_amgb;
  a_lda_c_2d_prm;
  a_lda_c_chachiyo;
  a_lda_c_chachiyo_mod;
  a_lda_c_gk72;
  a_lda_c_gombas;
  a_lda_c_hl;
  a_lda_c_lp96;
  a_lda_c_ml1;
  a_lda_c_pk09;
  a_lda_c_pmgb06;
  a_lda_c_pw;
  a_lda_c_pz;
  a_lda_c_rc04;
  a_lda_c_rpa;
  a_lda_c_vwn;
  a_lda_c_vwn_1;
  a_lda_c_vwn_2;
  a_lda_c_vwn_3;
  a_lda_c_vwn_4;
  a_lda_c_vwn_rpa;
  a_lda_c_w20;
  a_lda_c_wigner;
  a_lda_k_gds08_worker;
  a_lda_k_tf;
  a_lda_k_zlp;
  a_lda_x;
  a_lda_x_1d_exponential;
  a_lda_x_1d_soft;
  a_lda_x_2d;
  a_lda_x_erf;
  a_lda_x_rel;
  a_lda_x_sloc;
  a_lda_x_yukawa;
  a_lda_xc_1d_ehwlrg;
  a_lda_xc_ksdt;
  a_lda_xc_teter93;
  a_lda_xc_tih;
  a_lda_xc_zlp;
  a_mgga_c_b88;
  a_mgga_c_b94;
  a_mgga_c_bc95;
  a_mgga_c_cc;
  a_mgga_c_ccalda;
  a_mgga_c_cs;
  a_mgga_c_kcis;
  a_mgga_c_kcisk;
  a_mgga_c_ltapw;
  a_mgga_c_m05;
  a_mgga_c_m06l;
  a_mgga_c_m08;
  a_mgga_c_pkzb;
  a_mgga_c_r2scan;
  a_mgga_c_revscan;
  a_mgga_c_revtpss;
  a_mgga_c_rmggac;
  a_mgga_c_rppscan;
  a_mgga_c_rregtm;
  a_mgga_c_rscan;
  a_mgga_c_scan;
  a_mgga_c_tpss;
  a_mgga_c_tpssloc;
  a_mgga_c_vsxc;
  a_mgga_k_csk;
  a_mgga_k_csk_loc;
  a_mgga_k_gea2;
  a_mgga_k_gea4;
  a_mgga_k_lk;
  a_mgga_k_pc07;
  a_mgga_k_pgslb;
  a_mgga_k_rda;
  a_mgga_x_2d_js17;
  a_mgga_x_2d_prhg07;
  a_mgga_x_2d_prp10;
  a_mgga_x_br89;
  a_mgga_x_br89_explicit;
  a_mgga_x_edmgga;
  a_mgga_x_ft98;
  a_mgga_x_gdme;
  a_mgga_x_gvt4;
  a_mgga_x_gx;
  a_mgga_x_jk;
  a_mgga_x_lta;
  a_mgga_x_m06l;
  a_mgga_x_m08;
  a_mgga_x_m11;
  a_mgga_x_m11_l;
  a_mgga_x_mbeef;
  a_mgga_x_mbeefvdw;
  a_mgga_x_mbr;
  a_mgga_x_mbrxc_bg;
  a_mgga_x_mbrxh_bg;
  a_mgga_x_mcml;
  a_mgga_x_mggac;
  a_mgga_x_mn12;
  a_mgga_x_ms;
  a_mgga_x_msb;
  a_mgga_x_mvs;
  a_mgga_x_mvsb;
  a_mgga_x_pbe_gx;
  a_mgga_x_pkzb;
  a_mgga_x_r2scan;
  a_mgga_x_r4scan;
  a_mgga_x_regtm;
  a_mgga_x_regtpss;
  a_mgga_x_revtm;
  a_mgga_x_rlda;
  a_mgga_x_rppscan;
  a_mgga_x_rscan;
  a_mgga_x_rtpss;
  a_mgga_x_sa_tpss;
  a_mgga_x_scan;
  a_mgga_x_task;
  a_mgga_x_tau_hcth;
  a_mgga_x_tb09;
  a_mgga_x_th;
  a_mgga_x_tm;
  a_mgga_x_tpss;
  a_mgga_x_vcml;
  a_mgga_x_vt84;
  a_mgga_xc_b97mv;
  a_mgga_xc_b98;
  a_mgga_xc_cc06;
  a_mgga_xc_lp90;
  a_mgga_xc_zlp].

Lemma all_compiled_sources : map c_src all_compiled = all_sources.
Proof. reflexivity. Qed.
