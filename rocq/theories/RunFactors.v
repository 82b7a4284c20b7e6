(** The functionals whose limit at a uniform density depends on parameters: rules, and runs of the
    equality checker on them. *)
From Coq Require Import Reals List QArith Qreals Bool NArith Lra.
From Verif Require Import Bytes Syntax Parser PostProcess Src Ast Semantics RPow Norm Problems Families Inputs Factors.
Import ListNotations.
Open Scope R_scope.

(** ** Rules *)
Definition always (x : bstr -> R) : Prop := True.
Definition exchange_rules : list rule := [
  Rule f_lda_x ["params.alpha"] always (fun x => x "params.alpha");
  Rule f_gga_x_ol2 ["params.aa"] always (fun x => x "params.aa");
  Rule f_gga_x_optx ["params.a"] always (fun x => x "params.a");
  Rule f_gga_x_ssb_sw ["params.A"] always (fun x => x "params.A");
  Rule f_gga_x_s12 ["params.bx"; "params.A"] always (fun x => x "params.bx" * x "params.A");
  Rule f_gga_x_sogga11 ["params.a[0]"; "params.b[0]"] always (fun x => x "params.a[0]" + x "params.b[0]");
  Rule f_mgga_x_tau_hcth ["params.cx_local[0]"] always (fun x => x "params.cx_local[0]");
  Rule f_mgga_x_m06l ["params.a[0]"; "params.d[0]"] always (fun x => x "params.a[0]" + x "params.d[0]");
  Rule f_mgga_x_m08 ["params.a[0]"; "params.b[0]"] always (fun x => x "params.a[0]" + x "params.b[0]");
  Rule f_hyb_mgga_x_m05 ["params.a[0]"; "params.csi_HF"] always (fun x => x "params.a[0]" * x "params.csi_HF");
  Rule f_mgga_x_gdme ["params.AA"] always (fun x => 4 * x "params.AA" / (9 * PI));
  Rule f_mgga_x_rlda ["params.prefactor"] always (fun x => 25 / 18 * x "params.prefactor");
  Rule f_hyb_gga_x_cam_s12 ["params.A"; "p.cam_alpha"; "p.cam_beta"] (fun x => x "p.cam_beta" = 0)
    (fun x => x "params.A" * (1 - x "p.cam_alpha"));
  Rule f_gga_x_pbepow [] always (fun _ => 1);
  Rule f_gga_x_pw91 ["params.expo"] (fun x => x "params.expo" = 4) (fun _ => 1)]%b.
Definition kinetic_rules : list rule := [
  Rule f_lda_k_tf ["params.ax"] always (fun x => x "params.ax" * (10 / 3 * Rpower (4 / (9 * PI)) (2 / 3)));
  Rule f_gga_k_ol2 ["params.aa"] always (fun x => x "params.aa");
  Rule f_gga_k_tflw ["params.gamma"] always (fun x => x "params.gamma");
  Rule f_mgga_k_rda ["params.A0"] always (fun x => x "params.A0");
  Rule f_gga_k_dk ["params.aa[0]"; "params.bb[0]"] (fun x => x "params.bb[0]" <> 0) (fun x => x "params.aa[0]" / x "params.bb[0]");
  Rule f_gga_k_lc94 ["params.expo"] (fun x => x "params.expo" = 4) (fun _ => 1);
  Rule f_mgga_k_pc07 ["params.a"] (fun x => x "params.a" = 1 / 2) (fun _ => 1)]%b.

(** ** Runs *)
Local Notation V := EVar.
Definition x_runs : list (expr * list (bstr * Q) * N * compiled) := [
  (V "params.alpha", [], 0%N, a_lda_x); (V "params.aa", [], 0%N, a_gga_x_ol2); (V "params.a", [], 0%N, a_gga_x_optx);
  (V "params.A", [], 0%N, a_gga_x_ssb_sw); (EMul (V "params.bx") (V "params.A"), [], 0%N, a_gga_x_s12);
  (EAdd (V "params.a[0]") (V "params.b[0]"), [], 0%N, a_gga_x_sogga11); (V "params.cx_local[0]", [], 0%N, a_mgga_x_tau_hcth);
  (EAdd (V "params.a[0]") (V "params.d[0]"), [], 0%N, a_mgga_x_m06l); (EAdd (V "params.a[0]") (V "params.b[0]"), [], 0%N, a_mgga_x_m08);
  (EMul (V "params.a[0]") (V "params.csi_HF"), [], 0%N, a_hyb_mgga_x_m05);
  (EDiv (EMul (num 4) (V "params.AA")) (EMul (num 9) EPi), [], 0%N, a_mgga_x_gdme);
  (EMul (ENum (25 # 18)) (V "params.prefactor"), [], 0%N, a_mgga_x_rlda);
  (EMul (V "params.A") (ESub (num 1) (V "p.cam_alpha")), [("p.cam_beta", 0%Q)], 0%N, a_hyb_gga_x_cam_s12);
  (num 1, [], 0%N, a_gga_x_pbepow); (num 1, [("params.expo", 4%Q)], 0%N, a_gga_x_pw91)]%b.
Definition k_runs : list (expr * list (bstr * Q) * N * compiled) := [
  (EMul (V "params.ax") (EMul (ENum (10 # 3)) (EPow (EDiv (num 4) (EMul (num 9) EPi)) (ENum (2 # 3)))), [], 2%N, a_lda_k_tf);
  (V "params.aa", [], 0%N, a_gga_k_ol2); (V "params.gamma", [], 0%N, a_gga_k_tflw); (V "params.A0", [], 0%N, a_mgga_k_rda);
  (EDiv (V "params.aa[0]") (V "params.bb[0]"), [], 0%N, a_gga_k_dk); (num 1, [("params.expo", 4%Q)], 0%N, a_gga_k_lc94);
  (num 1, [("params.a", (1 # 2)%Q)], 0%N, a_mgga_k_pc07)]%b.
Definition runs_ok (energy : expr) (r : expr * list (bstr * Q) * N * compiled) : bool :=
  let '(w, pars, k, c) := r in inputs_ok c && chk_uniform (EMul w energy) pars k c.
Lemma x_run : forallb (runs_ok slater) x_runs = true. Proof. vm_cast_no_check (eq_refl true). Qed.
Lemma k_run : forallb (runs_ok thomas_fermi) k_runs = true. Proof. vm_cast_no_check (eq_refl true). Qed.

(** A run and its rule belong together: the same functional, the parameters with a given value
    have it, and the expression is the factor. *)
Definition fits (r : expr * list (bstr * Q) * N * compiled) (u : rule) : Prop :=
  let '(w, pars, k, c) := r in c_src c = ru_src u /\ forallb attr_name (ru_names u) = true /\
  (forall x, ru_when u x -> forall n q, In (n, q) pars -> In n (ru_names u) /\ x n = Q2R q) /\
  (forall I (G : env) x, (forall n, In n (ru_names u) -> G n = Some (VR (x n))) -> ru_when u x -> eval I G w = Some (VR (ru_factor u x))).
Lemma all_fit energy e rs us : (forall w pars k c u, fits (w, pars, k, c) u -> runs_ok energy (w, pars, k, c) = true -> limit_factor e u) ->
  Forall2 fits rs us -> forallb (runs_ok energy) rs = true -> Forall (limit_factor e) us.
Proof.
  intros H F. induction F as [|r u rs us Hf F IH]; intros R; [constructor|]. cbn [forallb] in R. apply andb_prop in R. destruct R as [R1 R2].
  constructor; [|exact (IH R2)]. destruct r as [[[w pars] k] c]. exact (H _ _ _ _ _ Hf R1).
Qed.
Ltac fit_values := intros I G x Hx Hu; cbn [eval];
  repeat match goal with |- context [G ?n] => rewrite (Hx n) by (cbn [ru_names In]; tauto) end;
  rewrite ?eval_num; cbn [lift2 ru_factor].
Ltac fit := split; [reflexivity|]; split; [reflexivity|]; split;
  [intros x Hu n q Hq; cbn in Hq; 
   first [contradiction|destruct Hq as [Hq|[]]; apply pair_equal_spec in Hq; destruct Hq as [<- <-];
   split; [cbn [ru_names In]; tauto|cbn [ru_when] in Hu; rewrite Hu; rewrite ?RPow.Q2R_0; unfold Q2R; cbn; lra]]
  |fit_values].
Lemma pi_nonzero : 9 * PI <> 0. Proof. pose proof PI_RGT_0. lra. Qed.
Lemma x_fits : Forall2 fits x_runs exchange_rules.
Proof.
  unfold x_runs, exchange_rules. repeat apply Forall2_cons; [..|apply Forall2_nil]; fit; try reflexivity.
  - destruct (Req_EM_T (9 * PI) 0) as [E|_]; [destruct (pi_nonzero E)|reflexivity].
Qed.
Lemma k_fits : Forall2 fits k_runs kinetic_rules.
Proof.
  unfold k_runs, kinetic_rules. repeat apply Forall2_cons; [..|apply Forall2_nil]; fit; try reflexivity.
  - destruct (Req_EM_T (9 * PI) 0) as [E|_]; [destruct (pi_nonzero E)|]. cbn [lift2].
    assert (0 < 4 / (9 * PI)) by (pose proof PI_RGT_0; apply Rdiv_lt_0_compat; lra).
    rewrite pypow_pos by assumption. cbn [lift2]. rewrite (Q2R_eq 10 3 (10 / 3)), (Q2R_eq 2 3 (2 / 3)) by lra. reflexivity.
  - cbn [ru_when] in Hu. destruct (Req_EM_T _ 0) as [E|_]; [destruct (Hu E)|reflexivity].
Qed.
Lemma exchange_factors : Forall (limit_factor slater_energy) exchange_rules.
Proof.
  refine (all_fit slater slater_energy _ _ _ x_fits x_run). intros w pars k c u (Hs & Hn & Hg & Hw) R.
  cbn [runs_ok] in R. apply andb_prop in R. exact (factor_x w u pars k c Hg Hn Hw Hs (proj1 R) (proj2 R)).
Qed.
Lemma kinetic_factors : Forall (limit_factor tf_energy) kinetic_rules.
Proof.
  refine (all_fit thomas_fermi tf_energy _ _ _ k_fits k_run). intros w pars k c u (Hs & Hn & Hg & Hw) R.
  cbn [runs_ok] in R. apply andb_prop in R. exact (factor_k w u pars k c Hg Hn Hw Hs (proj1 R) (proj2 R)).
Qed.
