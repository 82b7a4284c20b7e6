(** Special functions that are differentiable, and a moving density, for the examples of
    PropSmooth.v. *)
From Coq Require Import Reals List QArith Qreals Bool Lra Lia.
From Verif Require Import Bytes Syntax Parser PostProcess Src Ast Semantics Free Vec Deriv Impl ImplThm ImplThm2 ImplThm4 Records Samples
  Families Interval IntervalThm2 Absint AbsintThm AbsintThm2 Defined Domains Exact Inputs Library FamExact FamSamples FamLib Smooth SmoothLib SmoothCheck SmoothFam FamSmooth.
Import ListNotations.
Open Scope R_scope.

Definition smooth_ops : interp := {|
  op1 := fun n x => if beqb n "erf" then Some (tanh x) else if beqb n "lambertw" then Some x
                    else if beqb n "xc_E1_scaled" then (if Rlt_dec (-1) x then Some (1 / (x + 1)) else None) else Some 1;
  op2 := fun _ _ _ => Some 0; op3 := fun _ _ _ _ => None |}.
Lemma smooth_ops_ok : ops_ok smooth_ops.
Proof.
  constructor; intros; try ((eexists; split; [reflexivity|]) || (eexists; reflexivity); try lra).
  - apply tanh_odd_in.
  - exists (1 / (x + 1)). split; [cbn; destruct (Rlt_dec (-1) x); [reflexivity|lra]|].
    split; [lra|]. apply (Rmult_le_reg_r ((x + 1) * (x * (x + 2)))); [apply Rmult_lt_0_compat; nra|].
    replace (1 / (x + 1) * ((x + 1) * (x * (x + 2)))) with (x * (x + 2)) by (field; lra).
    replace ((x + 1) / (x * (x + 2)) * ((x + 1) * (x * (x + 2)))) with ((x + 1) * (x + 1)) by (field; nra). nra.
  - split; [lra|]. pose proof (exp_ineq1_le (Rabs x)). pose proof (Rabs_pos x). lra.
Qed.
Lemma smooth_ops_smooth : ops_smooth smooth_ops.
Proof.
  split; [|split].
  - intros n g l H. cbn [op1 smooth_ops]. destruct (beqb n "erf").
    { intros _. destruct (deriv_tanh (g 0)) as (m & Hm). exact (smooth_comp tanh m g l H Hm). }
    destruct (beqb n "lambertw"). { intros _. apply (smooth_of _ g l H). apply near_all. reflexivity. }
    destruct (beqb n "xc_E1_scaled").
    + destruct (Rlt_dec (-1) (g 0)) as [L|]; [|congruence]. intros _.
      assert (D : derives (fun t => 1 / (g t + 1))).
      { apply der_quot; [apply der_const|apply der_plus; [exists l; exact H|apply der_const]|lra]. }
      destruct D as (m & D). apply (smooth_of _ _ m D).
      eapply near_mono; [|apply (near_gt (fun _ => -1) g); [apply der_const|exists l; exact H|exact L]]. intros t Ht. cbv beta. destruct (Rlt_dec (-1) (g t)); [reflexivity|contradiction].
    + intros _. apply (smooth_of _ (fct_cte 1) 0 (derivable_pt_lim_const 1 0)). apply near_all. reflexivity.
  - intros n g l h k _ _ _ _. apply (smooth_of _ (fct_cte 0) 0 (derivable_pt_lim_const 0 0)). apply near_all. reflexivity.
  - intros n g l h k i m _ _ _ N. contradiction (N eq_refl).
Qed.

(** The density 5 + t with the gradient (1 + t) (1, 2, 0), and the channels 3 + t and 2 - t. *)
Definition moving_unpol (t : R) : field R := Field [] (fun _ => 5 + t) (fun _ i => (1 + t) * grad_unpol [] i) (fun _ _ _ => 0).
Definition moving_pol (t : R) : field R :=
  Field [2%nat] (fun ix => match ix with [0%nat] => 3 + t | _ => 2 - t end) (fun ix i => (1 + t) * grad_pol ix i) (fun _ _ _ => 0).
Lemma der_id : derives (fun t => t). Proof. exists 1. exact (derivable_pt_lim_id 0). Qed.
Lemma moving_unpol_path : path moving_unpol.
Proof.
  split; [reflexivity|]. split; [|split]; intros; cbn [moving_unpol f_val f_jac f_hess].
  - apply der_plus; [apply der_const|apply der_id].
  - apply der_mult; [apply der_plus; [apply der_const|apply der_id]|apply der_const].
  - apply der_const.
Qed.
Lemma moving_pol_path : path moving_pol.
Proof.
  split; [reflexivity|]. split; [|split]; intros; cbn [moving_pol f_val f_jac f_hess].
  - assert (D : derives (fun t => 2 - t)) by (apply (der_ext (fun t => 2 + -1 * t)); [intros t; ring|apply der_plus; [apply der_const|apply der_scal, der_id]]).
    destruct ix as [|[|n] [|m l]]; try exact D. apply der_plus; [apply der_const|apply der_id].
  - apply der_mult; [apply der_plus; [apply der_const|apply der_id]|apply der_const].
  - apply der_const.
Qed.
Lemma no_orbitals : opath None. Proof. intros m E. discriminate. Qed.
Lemma moving_point : point_unpol d_gga_x_pbe (pbe 1) 3 (moving_unpol 0) None.
Proof.
  split; [apply (wf_unpol 1); auto|]. split; [cbn [moving_unpol f_val]; lra|]. split; discriminate.
Qed.
Lemma moving_off : off_unpol (pbe 1) (moving_unpol 0).
Proof. split; cbn; lra. Qed.

(** A quarter of PBE exchange plus half of it. *)
Definition pbe_mix : func_p := FuncP "mix" "gga" 1 "" sample_scalars (fun _ => None) (Some [pbe 1; pbe 1]) (Some [1 / 4; 1 / 2]).
Lemma pbe_calm : single_calm smooth_ops f_gga_x_pbe (pbe 1) 3 (moving_unpol 0) None.
Proof.
  assert (M : In (f_gga_x_pbe, d_gga_x_pbe) smooth_unpol_functionals) by in_list.
  pose proof (proj1 (Forall_forall _ _) smooth_unpol_calm _ M) as C. cbn [fst snd] in C.
  destruct (proj1 (Forall_forall _ _) smooth_unpol_ready _ M) as [U _]. cbn [fst snd] in U.
  pose proof (pbe_record 1) as R. pose proof moving_point as P. pose proof P as (W & _).
  intros a Ea. rewrite (args_ok (pbe 1) 3 (moving_unpol 0) None None (or_intror (or_introl eq_refl)) (or_introl eq_refl) W) in Ea. injection Ea as <-.
  rewrite dens_expected, (total_spin_of (pbe 1) (moving_unpol 0) None (or_introl eq_refl) W). split; [exact (proj1 moving_off)|]. intros _.
  unfold formula_calm. cbn [fp_nspin pbe lib_record Nat.eqb].
  rewrite (expected_unpol_at (pbe 1) 3 (moving_unpol 0) None (or_intror (or_introl eq_refl)) eq_refl W).
  apply (C smooth_ops (attrs_of (pbe 1)) _ smooth_ops_ok (proj2 (proj2 (proj2 R))) (point_unpol_physical _ _ _ _ _ (level_of _ _ U _ _ _ R) P)).
  intros t E. rewrite attr_dens in E. injection E as <-. exact (proj2 moving_off).
Qed.
Lemma pbe_mix_value : exists v, epsilon_xc smooth_ops (lib_impl f_gga_x_pbe) pbe_mix 3 (moving_unpol 0) None = Ok (Some v).
Proof.
  assert (M : In (f_gga_x_pbe, d_gga_x_pbe) number_functionals) by in_list.
  destruct (proj1 (Forall_forall _ _) number_functionals_holds _ M smooth_ops (lib_impl f_gga_x_pbe) (pbe 1) 3%nat (moving_unpol 0) None smooth_ops_ok
    (or_introl (conj (pbe_record 1) moving_point))) as (v & Hv).
  change (invoke smooth_ops (lib_impl f_gga_x_pbe) 3 (moving_unpol 0) None (pbe 1) = Ok (Some v)) in Hv.
  change (exists v, invoke smooth_ops (lib_impl f_gga_x_pbe) 3 (moving_unpol 0) None pbe_mix = Ok (Some v)).
  unfold pbe_mix. revert Hv. generalize (pbe 1) as q. intros q Hv. cbn [invoke].
  change (beqb "" DEORBITALIZE) with false. change (beqb "" "") with true. cbv iota. rewrite Hv. cbn [rbind].
  eexists. reflexivity.
Qed.
Definition slater (ns : nat) : func_p := lib_record f_lda_x "lda" ns [("alpha"%b, 1)].
Lemma slater_record ns : record_for (lib_impl f_lda_x) f_lda_x d_lda_x ns (slater ns).
Proof.
  split; [split; [discriminate|split; [discriminate|reflexivity]]|]. split; [reflexivity|]. split; [reflexivity|].
  split; [exists (/ 1000); split; [reflexivity|lra]|]. split; [exists (/ 100); reflexivity|].
  intros x s [E|[]]. injection E as <- <-. eexists. split; [reflexivity|]. cbn [sat_sort]. try exact Logic.I; lra.
Qed.
Lemma moving_point_pol : point_pol d_lda_x (slater 2) 3 (moving_pol 0) None.
Proof.
  split; [split; [discriminate|split; [reflexivity|discriminate]]|]. split; [cbn; lra|]. split; [cbn; lra|]. split; discriminate.
Qed.
Lemma moving_off_pol : off_pol (slater 2) (moving_pol 0).
Proof.
  split; [cbn; lra|]. intros s Hs. assert (E : s = 0%nat \/ s = 1%nat) by lia. destruct E as [-> | ->]; split; cbn; lra.
Qed.
