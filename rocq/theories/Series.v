(** Partial sums of the power series of exp, ln and atan, with error bounds. *)
From Coq Require Import Reals Lra Lia Ratan.
Open Scope R_scope.

(** x^0/0! + ... + x^(n-1)/(n-1)! *)
Fixpoint exp_sum (n : nat) (x : R) : R := match n with O => 0 | S m => exp_sum m x + x ^ m / INR (fact m) end.
(** x + s x^3/3 + s^2 x^5/5 + ..., n terms *)
Fixpoint odd_sum (s : R) (n : nat) (x : R) : R :=
  match n with O => 0 | S m => odd_sum s m x + s ^ m * (x ^ (2 * m + 1) / INR (2 * m + 1)) end.
Fixpoint geo_sum (s : R) (n : nat) (x : R) : R := match n with O => 0 | S m => geo_sum s m x + s ^ m * x ^ (2 * m) end.

Lemma deriv_eq f x l l' : derivable_pt_lim f x l -> l = l' -> derivable_pt_lim f x l'.
Proof. intros H <-. exact H. Qed.
Lemma deriv_add f g x l m : derivable_pt_lim f x l -> derivable_pt_lim g x m -> derivable_pt_lim (fun t => f t + g t) x (l + m).
Proof. intros A B. exact (derivable_pt_lim_plus f g x l m A B). Qed.
Lemma deriv_sub f g x l m : derivable_pt_lim f x l -> derivable_pt_lim g x m -> derivable_pt_lim (fun t => f t - g t) x (l - m).
Proof. intros A B. exact (derivable_pt_lim_minus f g x l m A B). Qed.
Lemma deriv_const c x : derivable_pt_lim (fun _ => c) x 0.
Proof. exact (derivable_pt_lim_const c x). Qed.
Lemma deriv_scal c f x l : derivable_pt_lim f x l -> derivable_pt_lim (fun t => c * f t) x (c * l).
Proof. intros A. exact (derivable_pt_lim_scal f c x l A). Qed.
Lemma deriv_pow n x : derivable_pt_lim (fun t => t ^ n) x (INR n * x ^ pred n).
Proof. exact (derivable_pt_lim_pow x n). Qed.
Lemma INR_odd m : INR (2 * m + 1) <> 0.
Proof. apply not_0_INR. lia. Qed.

(** A function starting at 0 with a non-negative derivative. *)
Lemma climbs f f' x : 0 <= x -> (forall t, 0 <= t <= x -> derivable_pt_lim f t (f' t)) -> (forall t, 0 <= t <= x -> 0 <= f' t) -> f 0 = 0 -> 0 <= f x.
Proof.
  intros [Hx|<-] D P Z; [|lra]. destruct (MVT_cor2 f f' 0 x Hx) as (c & E & C); [exact D|].
  rewrite Z in E. specialize (P c ltac:(lra)). nra.
Qed.

(** ** The exponential *)
Lemma deriv_exp_sum n x : derivable_pt_lim (exp_sum (S n)) x (exp_sum n x).
Proof.
  induction n as [|n IH].
  - apply (deriv_eq _ _ 0 0); [|reflexivity]. intros e He. exists (mkposreal 1 Rlt_0_1). intros h Hh _. cbn.
    replace ((0 + 1 / 1 - (0 + 1 / 1)) / h - 0) with 0 by (field; exact Hh). rewrite Rabs_R0. exact He.
  - change (exp_sum (S (S n))) with (fun t => exp_sum (S n) t + t ^ S n / INR (fact (S n))).
    change (exp_sum (S n) x) with (exp_sum n x + x ^ n / INR (fact n)). apply deriv_add; [exact IH|].
    apply (derivable_pt_lim_ext (fun t => / INR (fact (S n)) * t ^ S n)); [intros t; unfold Rdiv; ring|].
    eapply deriv_eq; [apply deriv_scal, deriv_pow|]. cbn [pred]. rewrite fact_simpl, mult_INR.
    field. split; [apply INR_fact_neq_0|apply not_0_INR; lia].
Qed.
Lemma exp_sum_0 n : exp_sum (S n) 0 = 1.
Proof.
  induction n as [|n IH]; [cbn; field|]. change (exp_sum (S n) 0 + 0 ^ S n / INR (fact (S n)) = 1). rewrite IH, pow_i by lia. field. apply INR_fact_neq_0.
Qed.
Lemma exp_sum_ok n : forall x, 0 <= x <= 1 -> exp_sum n x <= exp x <= exp_sum n x + 3 * (x ^ n / INR (fact n)).
Proof.
  induction n as [|n IH]; intros x Hx.
  - cbn. pose proof (exp_pos x). pose proof exp_le_3 as H3.
    assert (exp x <= exp 1). { destruct (proj2 Hx) as [L| ->]; [left; apply exp_increasing, L|right; reflexivity]. }
    lra.
  - split.
    + assert (0 <= exp x - exp_sum (S n) x); [|lra].
      apply (climbs (fun t => exp t - exp_sum (S n) t) (fun t => exp t - exp_sum n t) x); [lra| | |].
      * intros t _. apply deriv_sub; [apply derivable_pt_lim_exp|apply deriv_exp_sum].
      * intros t Ht. specialize (IH t ltac:(lra)). lra.
      * rewrite exp_0, exp_sum_0. ring.
    + assert (0 <= exp_sum (S n) x + 3 * (x ^ S n / INR (fact (S n))) - exp x); [|lra].
      apply (climbs (fun t => exp_sum (S n) t + 3 * (t ^ S n / INR (fact (S n))) - exp t) (fun t => exp_sum n t + 3 * (t ^ n / INR (fact n)) - exp t) x); [lra| | |].
      * intros t _. apply deriv_sub; [|apply derivable_pt_lim_exp]. apply deriv_add; [apply deriv_exp_sum|]. apply deriv_scal.
        apply (derivable_pt_lim_ext (fun u => / INR (fact (S n)) * u ^ S n)); [intros u; unfold Rdiv; ring|].
        eapply deriv_eq; [apply deriv_scal, deriv_pow|]. cbn [pred]. rewrite fact_simpl, mult_INR.
        field. split; [apply INR_fact_neq_0|apply not_0_INR; lia].
      * intros t Ht. specialize (IH t ltac:(lra)). lra.
      * rewrite exp_0, exp_sum_0, pow_i by lia. field. apply INR_fact_neq_0.
Qed.

(** ** Odd series *)
Lemma deriv_odd_sum s n x : derivable_pt_lim (odd_sum s n) x (geo_sum s n x).
Proof.
  induction n as [|n IH].
  - exact (deriv_const 0 x).
  - change (odd_sum s (S n)) with (fun t => odd_sum s n t + s ^ n * (t ^ (2 * n + 1) / INR (2 * n + 1))).
    change (geo_sum s (S n) x) with (geo_sum s n x + s ^ n * x ^ (2 * n)). apply deriv_add; [exact IH|]. apply deriv_scal.
    apply (derivable_pt_lim_ext (fun t => / INR (2 * n + 1) * t ^ (2 * n + 1))); [intros t; unfold Rdiv; ring|].
    eapply deriv_eq; [apply deriv_scal, deriv_pow|]. replace (pred (2 * n + 1)) with (2 * n)%nat by lia. field. apply INR_odd.
Qed.
Lemma odd_sum_0 s n : odd_sum s n 0 = 0.
Proof. induction n as [|n IH]; cbn [odd_sum]; [reflexivity|]. rewrite IH, pow_i by lia. field. apply INR_odd. Qed.
Lemma geo_sum_closed s n x : geo_sum s n x * (1 - s * (x * x)) = 1 - s ^ n * x ^ (2 * n).
Proof.
  induction n as [|n IH]; [cbn; ring|]. cbn [geo_sum]. rewrite Rmult_plus_distr_r, IH.
  replace (2 * S n)%nat with (2 + 2 * n)%nat by lia. rewrite pow_add. cbn [pow]. ring.
Qed.
(** An error with a small derivative is small. *)
Lemma small_slope f f' c n x : 0 <= x -> (forall t, 0 <= t <= x -> derivable_pt_lim f t (f' t)) ->
  (forall t, 0 <= t <= x -> Rabs (f' t) <= c * t ^ (2 * n)) -> f 0 = 0 -> Rabs (f x) <= c * (x ^ (2 * n + 1) / INR (2 * n + 1)).
Proof.
  intros Hx D P Z.
  assert (G : forall t, derivable_pt_lim (fun t => c * (t ^ (2 * n + 1) / INR (2 * n + 1))) t (c * t ^ (2 * n))).
  { intros t. apply deriv_scal. apply (derivable_pt_lim_ext (fun t => / INR (2 * n + 1) * t ^ (2 * n + 1))); [intros u; unfold Rdiv; ring|].
    eapply deriv_eq; [apply deriv_scal, deriv_pow|]. replace (pred (2 * n + 1)) with (2 * n)%nat by lia. field. apply INR_odd. }
  assert (Z0 : c * (0 ^ (2 * n + 1) / INR (2 * n + 1)) = 0) by (rewrite pow_i by lia; field; apply INR_odd).
  assert (A : 0 <= c * (x ^ (2 * n + 1) / INR (2 * n + 1)) - f x).
  { apply (climbs (fun t => c * (t ^ (2 * n + 1) / INR (2 * n + 1)) - f t) (fun t => c * t ^ (2 * n) - f' t) x Hx).
    - intros t Ht. apply deriv_sub; [apply G|apply D, Ht].
    - intros t Ht. specialize (P t Ht). pose proof (Rle_abs (f' t)). lra.
    - rewrite Z, Z0. ring. }
  assert (B : 0 <= c * (x ^ (2 * n + 1) / INR (2 * n + 1)) + f x).
  { apply (climbs (fun t => c * (t ^ (2 * n + 1) / INR (2 * n + 1)) + f t) (fun t => c * t ^ (2 * n) + f' t) x Hx).
    - intros t Ht. apply deriv_add; [apply G|apply D, Ht].
    - intros t Ht. specialize (P t Ht). pose proof (Rle_abs (- f' t)) as H. rewrite Rabs_Ropp in H. lra.
    - rewrite Z, Z0. ring. }
  apply Rabs_le. lra.
Qed.
Lemma pow_even_nonneg t n : 0 <= t ^ (2 * n).
Proof. rewrite pow_mult. apply pow_le, pow2_ge_0. Qed.
(** The logarithm: ln ((1 + z) / (1 - z)) / 2. *)
Lemma deriv_ln_shift s x : 0 < 1 + s * x -> derivable_pt_lim (fun t => ln (1 + s * t)) x (s / (1 + s * x)).
Proof.
  intros P. eapply deriv_eq.
  - apply (derivable_pt_lim_comp (fun t => 1 + s * t) ln x (0 + s * 1) (/ (1 + s * x))).
    + apply deriv_add; [apply deriv_const|apply deriv_scal, derivable_pt_lim_id].
    + apply derivable_pt_lim_ln, P.
  - field. lra.
Qed.
Lemma ln_sum_ok n z : 0 <= z <= / 2 ->
  Rabs ((ln (1 + z) - ln (1 - z)) / 2 - odd_sum 1 n z) <= 2 * (z ^ (2 * n + 1) / INR (2 * n + 1)).
Proof.
  intros Hz.
  replace ((ln (1 + z) - ln (1 - z)) / 2) with (/ 2 * (ln (1 + 1 * z) - ln (1 + -1 * z))) by (rewrite Rmult_1_l; replace (1 + -1 * z) with (1 - z) by ring; field).
  apply (small_slope (fun t => / 2 * (ln (1 + 1 * t) - ln (1 + -1 * t)) - odd_sum 1 n t)
           (fun t => / 2 * (1 / (1 + 1 * t) - -1 / (1 + -1 * t)) - geo_sum 1 n t) 2 n z); [lra| | |].
  - intros t Ht. apply deriv_sub; [|apply deriv_odd_sum]. apply deriv_scal, deriv_sub; apply deriv_ln_shift; lra.
  - intros t Ht. pose proof (geo_sum_closed 1 n t) as E. rewrite pow1, !Rmult_1_l in E.
    assert (Q : / 2 <= 1 - t * t) by nra. pose proof (pow_even_nonneg t n) as P.
    replace (/ 2 * (1 / (1 + 1 * t) - -1 / (1 + -1 * t)) - geo_sum 1 n t) with (t ^ (2 * n) * / (1 - t * t)).
    + rewrite Rabs_right. 2:{ apply Rle_ge, Rmult_le_pos; [exact P|left; apply Rinv_0_lt_compat; lra]. }
      rewrite Rmult_comm. apply Rmult_le_compat_r; [exact P|]. replace 2 with (/ / 2) by field. apply Rinv_le_contravar; lra.
    + apply (Rmult_eq_reg_r (1 - t * t)); [|lra].
      transitivity (t ^ (2 * n)); [field; lra|]. rewrite Rmult_minus_distr_r, E.
      replace (/ 2 * (1 / (1 + 1 * t) - -1 / (1 + -1 * t)) * (1 - t * t)) with 1 by (field; lra). ring.
  - rewrite odd_sum_0, !Rmult_0_r, Rplus_0_r, ln_1. ring.
Qed.
Lemma atan_sum_ok n x : 0 <= x -> Rabs (atan x - odd_sum (-1) n x) <= 1 * (x ^ (2 * n + 1) / INR (2 * n + 1)).
Proof.
  intros Hx.
  apply (small_slope (fun t => atan t - odd_sum (-1) n t) (fun t => / (1 + t ^ 2) - geo_sum (-1) n t) 1 n x Hx).
  - intros t Ht. apply deriv_sub; [apply derivable_pt_lim_atan|apply deriv_odd_sum].
  - intros t Ht. pose proof (geo_sum_closed (-1) n t) as E. pose proof (pow_even_nonneg t n) as P.
    assert (Q : 1 <= 1 - -1 * (t * t)) by nra.
    replace (/ (1 + t ^ 2) - geo_sum (-1) n t) with ((-1) ^ n * t ^ (2 * n) * / (1 - -1 * (t * t))).
    + rewrite !Rabs_mult, pow_1_abs, Rmult_1_l, (Rabs_right (t ^ (2 * n))) by lra.
      rewrite Rabs_right by (left; apply Rinv_0_lt_compat; lra). rewrite Rmult_comm. apply Rmult_le_compat_r; [exact P|].
      rewrite <- Rinv_1. apply Rinv_le_contravar; lra.
    + apply (Rmult_eq_reg_r (1 - -1 * (t * t))); [|lra].
      transitivity ((-1) ^ n * t ^ (2 * n)); [field; lra|]. rewrite Rmult_minus_distr_r, E.
      replace (/ (1 + t ^ 2) * (1 - -1 * (t * t))) with 1 by (field; nra). ring.
  - rewrite odd_sum_0, atan_0. ring.
Qed.
