(** Calls at a uniform density for the rules of RunFactors.v: each returns a number other than
    zero, and where the factor is not one the limit is missed. *)
From Coq Require Import Reals List QArith Qreals Bool NArith Lra.
From Verif Require Import Bytes Syntax Parser PostProcess Src Ast Semantics Families Interval IntervalThm Absint AbsintThm AbsintThm2 AbsintThm3 Problems
  Library Callable Refute Undefined RunRefute Precise RunPrecise Decided Fam Corr Calls RunCalls Factors RunFactors.
Import ListNotations.
Open Scope R_scope.

(** Parameters 1/2, but 2 for the first coefficient of a sum or quotient, and no long-range part. *)
Definition put (n : bstr) (q : Q) (ps : qlist) : qlist := map (fun e => if beqb (fst e) n then (n, q) else e) ps.
Definition factor_params (c : compiled) : qlist :=
  put "p.cam_beta" 0%Q (put "params.a[0]" (3 # 1)%Q (put "params.aa[0]" (2 # 1)%Q (half_params c))).
(** The functionals whose factor varies; pc07 and pbepow have the factor one where their rules apply. *)
Definition varied_x : list compiled := [
  a_lda_x; a_gga_x_ol2; a_gga_x_optx; a_gga_x_ssb_sw; a_gga_x_s12; a_gga_x_sogga11; a_mgga_x_tau_hcth; a_mgga_x_m06l; a_mgga_x_m08;
  a_hyb_mgga_x_m05; a_mgga_x_gdme; a_mgga_x_rlda; a_hyb_gga_x_cam_s12].
Definition varied_k : list compiled := [a_lda_k_tf; a_gga_k_ol2; a_gga_k_tflw; a_mgga_k_rda; a_gga_k_dk].
Definition factor_x_calls : list (source * qlist) := given_as factor_params varied_x.
Definition factor_k_calls : list (source * qlist) := given_as factor_params varied_k.
Definition factor_calls : list (source * qlist) := given_as factor_params (varied_x ++ varied_k ++ [a_mgga_k_pc07; a_gga_x_pbepow]).

Lemma factors_ready : forallb (fun c => calls_ok (factor_params c) c) (varied_x ++ varied_k ++ [a_mgga_k_pc07; a_gga_x_pbepow]) = true.
Proof. vm_cast_no_check (eq_refl true). Qed.
Lemma varied_x_run : forallb (fun c => refute_uniform slater (11 # 20) (9 # 20) (factor_params c) c) varied_x = true.
Proof. vm_cast_no_check (eq_refl true). Qed.
Lemma varied_k_run : forallb (fun c => refute_uniform thomas_fermi (11 # 20) (9 # 20) (factor_params c) c) varied_k = true.
Proof. vm_cast_no_check (eq_refl true). Qed.
Lemma nonzero_run : forallb (fun c => refute_uniform (num 0) (11 # 20) (9 # 20) (factor_params c) c) (varied_x ++ varied_k ++ [a_mgga_k_pc07; a_gga_x_pbepow]) = true.
Proof. vm_cast_no_check (eq_refl true). Qed.

Lemma factor_x_calls_miss : Forall (fun p => call_misses_limit slater_energy (snd p) (fst p)) factor_x_calls.
Proof.
  pose proof factors_ready as R. apply part in R. destruct R as [R _].
  exact (Forall_given (call_misses_limit slater_energy) factor_params _ _ _ (fun c => call_limit_x_sound (11 # 20) (9 # 20) _ c) R varied_x_run).
Qed.
Lemma factor_k_calls_miss : Forall (fun p => call_misses_limit tf_energy (snd p) (fst p)) factor_k_calls.
Proof.
  pose proof factors_ready as R. apply part in R. destruct R as [_ R]. apply part in R. destruct R as [R _].
  exact (Forall_given (call_misses_limit tf_energy) factor_params _ _ _ (fun c => call_limit_k_sound (11 # 20) (9 # 20) _ c) R varied_k_run).
Qed.
Lemma call_nonzero_sound a b ps c : calls_ok ps c = true -> refute_uniform (num 0) a b ps c = true -> call_misses_limit (fun _ _ => 0) ps (c_src c).
Proof. apply call_limit_sound. intros I G r0 r1 G0 G1 H0 H1. apply eval_num. Qed.
Lemma factor_calls_nonzero : Forall (fun p => call_misses_limit (fun _ _ => 0) (snd p) (fst p)) factor_calls.
Proof.
  exact (Forall_given (call_misses_limit (fun _ _ => 0)) factor_params _ _ _ (fun c => call_nonzero_sound (11 # 20) (9 # 20) _ c) factors_ready nonzero_run).
Qed.

(** Others, at parameters 1/2; with a short range of the interaction; and with close bounds. *)
Definition missed_half : list compiled := [a_gga_x_beefvdw; a_gga_x_hjs; a_gga_x_hjs_b88_v2; a_gga_x_ityh_optx; a_gga_x_lb; a_gga_x_n12; a_hyb_mgga_x_js18; a_mgga_x_mn12].
Definition missed_close : list compiled := [
  a_gga_x_bayesian; a_lda_x_rel; a_lda_x_sloc; a_mgga_x_2d_js17; a_mgga_x_br89_explicit; a_mgga_x_mcml; a_mgga_x_vcml].
Definition missed_ranged : list compiled := [
  a_gga_x_ityh; a_gga_x_ityh_pbe; a_gga_x_sfat; a_gga_x_sfat_pbe; a_gga_x_wpbeh; a_hyb_mgga_x_pjs18; a_lda_x_erf; a_lda_x_yukawa;
  a_mgga_x_m11; a_mgga_x_m11_l].
Definition missed_x_calls : list (source * qlist) :=
  given_as half_params missed_half ++ given_as half_params missed_close ++ given_as ranged_params missed_ranged.
Definition missed_k_calls : list (source * qlist) := given_as half_params [a_lda_k_gds08_worker].
Lemma missed_half_ready : forallb (fun c => calls_ok (half_params c) c) missed_half = true. Proof. vm_cast_no_check (eq_refl true). Qed.
Lemma missed_half_run : forallb (fun c => refute_uniform slater (11 # 20) (9 # 20) (half_params c) c) missed_half = true. Proof. vm_cast_no_check (eq_refl true). Qed.
Lemma missed_close_ready : forallb (fun c => calls_ok (half_params c) c) missed_close = true. Proof. vm_cast_no_check (eq_refl true). Qed.
Lemma missed_close_run : forallb (fun c => @refute_uniform (close 64 8) slater (11 # 20) (9 # 20) (half_params c) c) missed_close = true.
Proof. vm_cast_no_check (eq_refl true). Qed.
Lemma missed_ranged_ready : forallb (fun c => calls_ok (ranged_params c) c) missed_ranged = true. Proof. vm_cast_no_check (eq_refl true). Qed.
Lemma missed_ranged_run : forallb (fun c => @refute_uniform (close 64 8) slater (11 # 20) (9 # 20) (ranged_params c) c) missed_ranged = true.
Proof. vm_cast_no_check (eq_refl true). Qed.
Lemma missed_k_ready : forallb (fun c => calls_ok (half_params c) c) [a_lda_k_gds08_worker] = true. Proof. vm_cast_no_check (eq_refl true). Qed.
Lemma missed_k_run : forallb (fun c => refute_uniform thomas_fermi (11 # 20) (9 # 20) (half_params c) c) [a_lda_k_gds08_worker] = true.
Proof. vm_cast_no_check (eq_refl true). Qed.
Lemma missed_x_calls_miss : Forall (fun p => call_misses_limit slater_energy (snd p) (fst p)) missed_x_calls.
Proof.
  apply Forall_app. split; [exact (Forall_given (call_misses_limit slater_energy) half_params _ _ _ (fun c => call_limit_x_sound (11 # 20) (9 # 20) _ c) missed_half_ready missed_half_run)|].
  apply Forall_app. split.
  - exact (Forall_given (call_misses_limit slater_energy) half_params _ _ _ (fun c => @call_limit_x_sound _ (close_pi 64 8) (11 # 20) (9 # 20) _ c) missed_close_ready missed_close_run).
  - exact (Forall_given (call_misses_limit slater_energy) ranged_params _ _ _ (fun c => @call_limit_x_sound _ (close_pi 64 8) (11 # 20) (9 # 20) _ c) missed_ranged_ready missed_ranged_run).
Qed.
Lemma missed_k_calls_miss : Forall (fun p => call_misses_limit tf_energy (snd p) (fst p)) missed_k_calls.
Proof. exact (Forall_given (call_misses_limit tf_energy) half_params _ _ _ (fun c => call_limit_k_sound (11 # 20) (9 # 20) _ c) missed_k_ready missed_k_run). Qed.

(** The functionals whose limit, or the lack of it, is known. *)
Definition limit_known : list bstr := map src_name (uniform_x_functionals ++ other_limit_x_functionals ++ uniform_k_functionals ++ other_limit_k_functionals) ++
  map (fun u => src_name (ru_src u)) (exchange_rules ++ kinetic_rules) ++ map (fun p => src_name (fst p)) (missed_x_calls ++ missed_k_calls).
