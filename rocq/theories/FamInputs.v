(** Names read and functions called by the formulas. Written by tools/gen_inputs.py. *)
From Coq Require Import List Bool.
From Verif Require Import Bytes Syntax Parser PostProcess Src Ast Semantics Free Records Families Inputs Fam.
Import ListNotations.

Definition name_error_names : list bstr := [
  "gga_x_fd_lb94"; "gga_x_gg99"; "hyb_gga_xc_case21"; "lda_x_1d_exponential"; "lda_x_1d_soft";
  "mgga_c_b94"; "mgga_x_br89"; "mgga_x_mbr"; "mgga_x_mbrxc_bg"; "mgga_x_mbrxh_bg";
  "mgga_x_mggac"; "mgga_x_tb09"]%b.
Definition no_exception (f : source) : Prop :=
  if mem (src_name f) name_error_names then always_name_error f else raises_nothing f.
Lemma exceptions_run : forallb (fun c => if mem (src_name (c_src c)) name_error_names
  then calls_undefined (c_pol c) && calls_undefined (c_unpol c)
  else inputs_ok c && negb (calls_undefined (c_pol c)) && negb (calls_undefined (c_unpol c))) all_compiled = true.
Proof. vm_cast_no_check (eq_refl true). Qed.
Lemma exceptions_holds : Forall no_exception all_sources.
Proof.
  rewrite <- all_compiled_sources. apply Forall_src. apply Forall_forall. intros c H.
  pose proof exceptions_run as E. rewrite forallb_forall in E. specialize (E c H). unfold no_exception.
  destruct (mem (src_name (c_src c)) name_error_names); [exact (name_error_sound c E)|exact (raises_nothing_sound c E)].
Qed.

Definition no_s1_list : list compiled := [
  a_gga_x_2d_b86; a_gga_x_2d_b86_mgc; a_gga_x_2d_b88; a_gga_x_2d_pbe; a_gga_x_airy; a_gga_x_ak13;
  a_gga_x_am05; a_gga_x_b86; a_gga_x_b88; a_gga_x_bayesian; a_gga_x_beefvdw; a_gga_x_bpccac;
  a_gga_x_c09x; a_gga_x_cap; a_gga_x_chachiyo; a_gga_x_dk87; a_gga_x_ev93; a_gga_x_fd_lb94;
  a_gga_x_ft97; a_gga_x_g96; a_gga_x_gg99; a_gga_x_hcth_a; a_gga_x_herman; a_gga_x_hjs;
  a_gga_x_hjs_b88_v2; a_gga_x_htbs; a_gga_x_ityh; a_gga_x_ityh_optx; a_gga_x_ityh_pbe;
  a_gga_x_kt; a_gga_x_lag; a_gga_x_lb; a_gga_x_lg93; a_gga_x_lspbe; a_gga_x_lsrpbe;
  a_gga_x_lv_rpw86; a_gga_x_mpbe; a_gga_x_n12; a_gga_x_ncap; a_gga_x_ol2; a_gga_x_optx;
  a_gga_x_pbe; a_gga_x_pbea; a_gga_x_pbeint; a_gga_x_pbepow; a_gga_x_pbetrans; a_gga_x_pw86;
  a_gga_x_pw91; a_gga_x_q1d; a_gga_x_q2d; a_gga_x_rge2; a_gga_x_rpbe; a_gga_x_s12; a_gga_x_sfat;
  a_gga_x_sfat_pbe; a_gga_x_sg4; a_gga_x_sogga11; a_gga_x_ssb_sw; a_gga_x_vmt; a_gga_x_vmt84;
  a_gga_x_wc; a_gga_x_wpbeh; a_hyb_gga_x_cam_s12; a_hyb_mgga_x_dldf; a_hyb_mgga_x_js18;
  a_hyb_mgga_x_m05; a_hyb_mgga_x_pjs18; a_lda_x; a_lda_x_1d_exponential; a_lda_x_1d_soft;
  a_lda_x_2d; a_lda_x_erf; a_lda_x_rel; a_lda_x_sloc; a_lda_x_yukawa; a_mgga_x_2d_js17;
  a_mgga_x_2d_prhg07; a_mgga_x_2d_prp10; a_mgga_x_br89; a_mgga_x_br89_explicit; a_mgga_x_edmgga;
  a_mgga_x_ft98; a_mgga_x_gdme; a_mgga_x_gvt4; a_mgga_x_gx; a_mgga_x_jk; a_mgga_x_lta;
  a_mgga_x_m06l; a_mgga_x_m08; a_mgga_x_m11; a_mgga_x_m11_l; a_mgga_x_mbeef; a_mgga_x_mbeefvdw;
  a_mgga_x_mbr; a_mgga_x_mbrxc_bg; a_mgga_x_mbrxh_bg; a_mgga_x_mcml; a_mgga_x_mggac;
  a_mgga_x_mn12; a_mgga_x_ms; a_mgga_x_msb; a_mgga_x_mvs; a_mgga_x_mvsb; a_mgga_x_pbe_gx;
  a_mgga_x_pkzb; a_mgga_x_r2scan; a_mgga_x_r4scan; a_mgga_x_regtm; a_mgga_x_regtpss;
  a_mgga_x_revtm; a_mgga_x_rlda; a_mgga_x_rppscan; a_mgga_x_rscan; a_mgga_x_rtpss;
  a_mgga_x_sa_tpss; a_mgga_x_scan; a_mgga_x_task; a_mgga_x_tau_hcth; a_mgga_x_tb09; a_mgga_x_th;
  a_mgga_x_tm; a_mgga_x_tpss; a_mgga_x_vcml; a_mgga_x_vt84].
Definition no_s1_functionals : list source := [
  f_gga_x_2d_b86; f_gga_x_2d_b86_mgc; f_gga_x_2d_b88; f_gga_x_2d_pbe; f_gga_x_airy; f_gga_x_ak13;
  f_gga_x_am05; f_gga_x_b86; f_gga_x_b88; f_gga_x_bayesian; f_gga_x_beefvdw; f_gga_x_bpccac;
  f_gga_x_c09x; f_gga_x_cap; f_gga_x_chachiyo; f_gga_x_dk87; f_gga_x_ev93; f_gga_x_fd_lb94;
  f_gga_x_ft97; f_gga_x_g96; f_gga_x_gg99; f_gga_x_hcth_a; f_gga_x_herman; f_gga_x_hjs;
  f_gga_x_hjs_b88_v2; f_gga_x_htbs; f_gga_x_ityh; f_gga_x_ityh_optx; f_gga_x_ityh_pbe;
  f_gga_x_kt; f_gga_x_lag; f_gga_x_lb; f_gga_x_lg93; f_gga_x_lspbe; f_gga_x_lsrpbe;
  f_gga_x_lv_rpw86; f_gga_x_mpbe; f_gga_x_n12; f_gga_x_ncap; f_gga_x_ol2; f_gga_x_optx;
  f_gga_x_pbe; f_gga_x_pbea; f_gga_x_pbeint; f_gga_x_pbepow; f_gga_x_pbetrans; f_gga_x_pw86;
  f_gga_x_pw91; f_gga_x_q1d; f_gga_x_q2d; f_gga_x_rge2; f_gga_x_rpbe; f_gga_x_s12; f_gga_x_sfat;
  f_gga_x_sfat_pbe; f_gga_x_sg4; f_gga_x_sogga11; f_gga_x_ssb_sw; f_gga_x_vmt; f_gga_x_vmt84;
  f_gga_x_wc; f_gga_x_wpbeh; f_hyb_gga_x_cam_s12; f_hyb_mgga_x_dldf; f_hyb_mgga_x_js18;
  f_hyb_mgga_x_m05; f_hyb_mgga_x_pjs18; f_lda_x; f_lda_x_1d_exponential; f_lda_x_1d_soft;
  f_lda_x_2d; f_lda_x_erf; f_lda_x_rel; f_lda_x_sloc; f_lda_x_yukawa; f_mgga_x_2d_js17;
  f_mgga_x_2d_prhg07; f_mgga_x_2d_prp10; f_mgga_x_br89; f_mgga_x_br89_explicit; f_mgga_x_edmgga;
  f_mgga_x_ft98; f_mgga_x_gdme; f_mgga_x_gvt4; f_mgga_x_gx; f_mgga_x_jk; f_mgga_x_lta;
  f_mgga_x_m06l; f_mgga_x_m08; f_mgga_x_m11; f_mgga_x_m11_l; f_mgga_x_mbeef; f_mgga_x_mbeefvdw;
  f_mgga_x_mbr; f_mgga_x_mbrxc_bg; f_mgga_x_mbrxh_bg; f_mgga_x_mcml; f_mgga_x_mggac;
  f_mgga_x_mn12; f_mgga_x_ms; f_mgga_x_msb; f_mgga_x_mvs; f_mgga_x_mvsb; f_mgga_x_pbe_gx;
  f_mgga_x_pkzb; f_mgga_x_r2scan; f_mgga_x_r4scan; f_mgga_x_regtm; f_mgga_x_regtpss;
  f_mgga_x_revtm; f_mgga_x_rlda; f_mgga_x_rppscan; f_mgga_x_rscan; f_mgga_x_rtpss;
  f_mgga_x_sa_tpss; f_mgga_x_scan; f_mgga_x_task; f_mgga_x_tau_hcth; f_mgga_x_tb09; f_mgga_x_th;
  f_mgga_x_tm; f_mgga_x_tpss; f_mgga_x_vcml; f_mgga_x_vt84].
Lemma no_s1_run : forallb (fun c => no_s1 c) no_s1_list = true.
Proof. vm_cast_no_check (eq_refl true). Qed.
Lemma no_s1_holds : Forall ignores_s1 no_s1_functionals.
Proof.
  change no_s1_functionals with (map c_src no_s1_list). apply Forall_src.
  apply Forall_forall. intros c H. pose proof no_s1_run as E. rewrite forallb_forall in E. exact (ignores_s1_sound c (E c H)).
Qed.

(** Exchange functionals are those named ..._x or ..._x_... (libxc's naming scheme). *)
Definition exchange_name (n : bstr) : bool :=
  existsb (fun p => bprefix (p +++ "_x_")%b n || beqb n (p +++ "_x")%b) ["lda"; "gga"; "mgga"; "hyb_lda"; "hyb_gga"; "hyb_mgga"]%b.
Lemma no_s1_complete : map src_name no_s1_functionals = filter exchange_name (map src_name all_sources).
Proof. vm_compute. reflexivity. Qed.
