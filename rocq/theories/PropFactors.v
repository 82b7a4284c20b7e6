(** C05 where the limit depends on parameters: the energy at a uniform density is that of the
    uniform gas times a factor (RunFactors.v lists the rules), and calls that miss the limit. *)
From Coq Require Import Reals List Bool QArith Arith Lra.
From Verif Require Import Bytes Syntax Parser PostProcess Src Ast Semantics Free Vec Impl ImplThm ImplThm4 Records Samples Families
  Interval Absint AbsintThm Decided Fam Defined Domains Exact Library Callable FamExact FamSamples Refute Corr Calls RunCalls Factors RunFactors FactorCalls PropFamilies.
Import ListNotations.
Open Scope R_scope.

Theorem C05_exchange_factor_partial : Forall (limit_factor slater_energy) exchange_rules.
Proof. exact exchange_factors. Qed.
Print Assumptions C05_exchange_factor_partial.
Theorem C05_kinetic_factor_partial : Forall (limit_factor tf_energy) kinetic_rules.
Proof. exact kinetic_factors. Qed.
Print Assumptions C05_kinetic_factor_partial.
(** So the limit depends on the parameters: at some it is missed. *)
Theorem C05_parameters_refuted :
  Forall (fun p => call_misses_limit slater_energy (snd p) (fst p)) (factor_x_calls ++ missed_x_calls) /\
  Forall (fun p => call_misses_limit tf_energy (snd p) (fst p)) (factor_k_calls ++ missed_k_calls).
Proof.
  exact (conj (proj2 (Forall_app _ _ _) (conj factor_x_calls_miss missed_x_calls_miss))
              (proj2 (Forall_app _ _ _) (conj factor_k_calls_miss missed_k_calls_miss))).
Qed.
Print Assumptions C05_parameters_refuted.

(** The calls of the first two theorems return numbers: all but the two whose exponent is given. *)
Example C05_factor_numbers : Forall (fun p => call_misses_limit (fun _ _ => 0) (snd p) (fst p)) factor_calls.
Proof. exact factor_calls_nonzero. Qed.
Example C05_factor_covers : (length exchange_rules, length kinetic_rules, length factor_calls) = (15, 7, 20)%nat /\
  forallb (fun u => mem (src_name (ru_src u)) (map (fun p => src_name (fst p)) factor_calls ++ ["gga_x_pw91"; "gga_k_lc94"]%b)) (exchange_rules ++ kinetic_rules) = true.
Proof. vm_compute. split; reflexivity. Qed.

(** The exchange and kinetic functionals of which the theorems on C05 say nothing: 25 of 155; seven of
    them return no number without a gradient (C06_calls_refuted). *)
Example C05_remaining :
  let l := filter (fun f => exchange f || kinetic f) (map c_src all_compiled) in length l = 155%nat /\
  filter (fun x => negb (mem x limit_known)) (map src_name l) = [
    "gga_k_lkt"; "gga_k_meyer"; "gga_x_chachiyo"; "gga_x_gg99"; "gga_x_lag"; "lda_x_1d_exponential"; "lda_x_1d_soft"; "mgga_x_2d_prhg07";
    "mgga_x_2d_prp10"; "mgga_x_br89"; "mgga_x_edmgga"; "mgga_x_gx"; "mgga_x_mbr"; "mgga_x_mbrxc_bg"; "mgga_x_mbrxh_bg"; "mgga_x_mggac";
    "mgga_x_mvsb"; "mgga_x_pbe_gx"; "mgga_x_r2scan"; "mgga_x_r4scan"; "mgga_x_rppscan"; "mgga_x_rscan"; "mgga_x_scan"; "mgga_x_task";
    "mgga_x_tb09"]%b.
Proof. vm_compute. split; reflexivity. Qed.

(** PW91 exchange with exponent four. *)
Definition pw91_params : list (bstr * R) := [("a"%b, 1); ("b"%b, 2); ("c"%b, 3); ("d"%b, - 5); ("f"%b, 7); ("alpha"%b, 100); ("expo"%b, 4)].
Definition pw91 : func_p := lib_record f_gga_x_pw91 "gga" 2 pw91_params.
Example C05_factor_example : exists v,
  epsilon_xc sample_ops (lib_impl f_gga_x_pw91) pw91 3 uniform_pol None = Ok (Some v) /\
  5 * v = - (3 / 2) * Rpower (3 / (4 * PI)) (1 / 3) * (Rpower 3 (4 / 3) + Rpower 2 (4 / 3)).
Proof.
  assert (M : In (f_gga_x_pw91, d_gga_x_pw91) number_functionals) by in_list.
  assert (R : single (lib_impl f_gga_x_pw91) pw91 f_gga_x_pw91) by (split; [discriminate|]; split; [discriminate|reflexivity]).
  assert (D : 0 < f_val uniform_pol [0%nat] /\ 0 < f_val uniform_pol [1%nat]) by (cbn [f_val uniform_pol]; rewrite lin_pol0, lin_pol1; lra).
  destruct (proj1 (Forall_forall _ _) C06_returns_number_partial _ M sample_ops (lib_impl f_gga_x_pw91) pw91 3%nat uniform_pol None sample_ops_ok) as (v & Hv).
  - right. split.
    + split; [exact R|]. split; [reflexivity|]. split; [reflexivity|].
      split; [exists (/ 1000); split; [reflexivity|lra]|]. split; [exists (/ 100); reflexivity|].
      intros x s H. cbn in H. repeat (destruct H as [H|H]; [injection H as <- <-; eexists; split; [reflexivity|cbn [sat_sort]; first [exact I|lra]]|]). destruct H.
    + apply gga_point_pol; try reflexivity; apply D.
  - exists v. split; [exact Hv|].
    assert (U : In (Rule f_gga_x_pw91 ["params.expo"%b] (fun x => x "params.expo"%b = 4) (fun _ => 1)) exchange_rules) by in_list.
    destruct (proj1 (Forall_forall _ _) C05_exchange_factor_partial _ U sample_ops (lib_impl f_gga_x_pw91) pw91 3%nat uniform_pol None (fun _ => 4) v) as [E _].
    + split; [exact R|]. split; [reflexivity|]. split; [reflexivity|]. cbn. lra.
    + intros n Hn. destruct Hn as [Hn|Hn]; [subst n; reflexivity|destruct Hn].
    + reflexivity.
    + apply (FamSamples.wf_unpol 2); auto.
    + exact D.
    + intros s _. split; intros; reflexivity.
    + discriminate.
    + exact (sample_unscreened pw91 eq_refl).
    + apply sample_unclipped; [reflexivity|apply lin_pol0|apply lin_pol1].
    + exact Hv.
    + cbn [ru_factor f_val uniform_pol] in E. rewrite lin_pol0, lin_pol1 in E. unfold slater_energy in E. lra.
Qed.
