(** Facts about real numbers behind the special sums of Absint.v: the Perdew-Wang correlation
    energy is negative; the spin interpolation between its limits. *)
From Coq Require Import Reals Lra Lia.
From Verif Require Import Semantics RPow IntervalThm2.
Open Scope R_scope.

Lemma exp_convex t u : 0 <= t <= 1 -> exp (t * u) <= t * exp u + (1 - t).
Proof.
  intros H. set (w := exp (t * u)). assert (W : 0 < w) by apply exp_pos.
  assert (A : w * (1 + (1 - t) * u) <= exp u).
  { replace (exp u) with (w * exp ((1 - t) * u)) by (unfold w; rewrite <- exp_plus; f_equal; ring).
    apply Rmult_le_compat_l; [lra|apply exp_ge1]. }
  assert (B : w * (1 - t * u) <= 1).
  { replace 1 with (w * exp (- (t * u))) at 2 by (unfold w; rewrite <- exp_plus; replace (t * u + - (t * u)) with 0 by ring; apply exp_0).
    apply Rmult_le_compat_l; [lra|]. pose proof (exp_ge1 (- (t * u))). lra. }
  assert (A' : t * (w * (1 + (1 - t) * u)) <= t * exp u) by (apply Rmult_le_compat_l; lra).
  assert (B' : (1 - t) * (w * (1 - t * u)) <= (1 - t) * 1) by (apply Rmult_le_compat_l; lra).
  replace w with (t * (w * (1 + (1 - t) * u)) + (1 - t) * (w * (1 - t * u))) at 1 by ring. lra.
Qed.
Lemma ln_shrink t y : 0 <= t <= 1 -> 0 <= y -> t * ln (1 + y) <= ln (1 + t * y).
Proof.
  intros H Hy. assert (0 <= t * y) by (apply Rmult_le_pos; lra). pose proof (exp_convex t (ln (1 + y)) H) as E. rewrite exp_ln in E by lra.
  rewrite <- (ln_exp (t * ln (1 + y))). apply ln_le_mono; [apply exp_pos|lra].
Qed.
Lemma ln_stretch k y : 1 <= k -> 0 <= y -> ln (1 + k * y) <= k * ln (1 + y).
Proof.
  intros H Hy. assert (K : 0 < / k) by (apply Rinv_0_lt_compat; lra).
  assert (K1 : / k <= 1) by (rewrite <- Rinv_1; apply Rinv_le_contravar; lra).
  assert (0 <= k * y) by (apply Rmult_le_pos; lra).
  pose proof (ln_shrink (/ k) (k * y) ltac:(lra) ltac:(lra)) as L.
  replace (/ k * (k * y)) with y in L by (field; lra).
  apply (Rmult_le_compat_l k) in L; [|lra]. rewrite <- Rmult_assoc, Rinv_r, Rmult_1_l in L by lra. exact L.
Qed.

(** A (1 + a x) ln (1 + k / d) *)
Definition fit (A a k d x : R) : R := A * (1 + a * x) * ln (1 + k / d).
Lemma ln_quot_pos k d : 0 < k -> 0 < d -> 0 < ln (1 + k / d).
Proof. intros K D. assert (0 < k / d) by (apply Rdiv_lt_0_compat; assumption). rewrite <- ln_1. apply ln_increasing; lra. Qed.
Lemma lin_pos a x : 0 < a -> 0 < x -> 0 < 1 + a * x.
Proof. intros. assert (0 < a * x) by (apply Rmult_lt_0_compat; assumption). lra. Qed.
Lemma fit_pos A a k d x : 0 < A -> 0 < a -> 0 < k -> 0 < d -> 0 < x -> 0 < fit A a k d x.
Proof.
  intros HA Ha Hk Hd Hx. unfold fit. apply Rmult_lt_0_compat; [|apply ln_quot_pos; assumption].
  apply Rmult_lt_0_compat; [exact HA|apply lin_pos; assumption].
Qed.
Lemma div_swap k d c : 0 < d -> 0 < c -> c <= d -> 0 < k -> k / d <= k / c.
Proof. intros. apply Rmult_le_compat_l; [lra|]. apply Rinv_le_contravar; assumption. Qed.
Lemma fit_upper q m A0 a0 k0 d0 A2 a2 k2 d2 x :
  0 < A0 -> 0 < a0 -> 0 < k0 -> 0 < d0 -> 0 < A2 -> 0 < a2 -> 0 < d2 -> 0 < x -> 0 < m <= 1 -> k0 <= k2 -> m * d0 <= d2 ->
  A2 * k2 * (1 + a2 * x) <= q * A0 * k0 * m * (1 + a0 * x) -> fit A2 a2 k2 d2 x <= q * fit A0 a0 k0 d0 x.
Proof.
  intros HA0 Ha0 Hk0 Hd0 HA2 Ha2 Hd2 Hx Hm Hk Hd H. set (r := k2 / (m * k0)). assert (MK : 0 < m * k0) by (apply Rmult_lt_0_compat; lra).
  assert (R : 1 <= r). { unfold r. apply (Rmult_le_reg_r (m * k0)); [exact MK|]. unfold Rdiv. rewrite Rmult_assoc, Rinv_l by lra. nra. }
  assert (MD : 0 < m * d0) by (apply Rmult_lt_0_compat; lra).
  assert (L : ln (1 + k2 / d2) <= r * ln (1 + k0 / d0)).
  { eapply Rle_trans; [|apply ln_stretch; [exact R|left; apply Rdiv_lt_0_compat; assumption]].
    apply ln_le_mono; [assert (0 < k2 / d2) by (apply Rdiv_lt_0_compat; lra); lra|]. apply Rplus_le_compat_l.
    replace (r * (k0 / d0)) with (k2 / (m * d0)) by (unfold r; field; lra). apply div_swap; lra. }
  pose proof (ln_quot_pos k0 d0 Hk0 Hd0) as P. pose proof (lin_pos a2 x Ha2 Hx) as Q. pose proof (lin_pos a0 x Ha0 Hx) as Q0. unfold fit.
  apply Rle_trans with (A2 * (1 + a2 * x) * (r * ln (1 + k0 / d0))).
  - apply Rmult_le_compat_l; [|exact L]. left. apply Rmult_lt_0_compat; assumption.
  - rewrite <- !Rmult_assoc. apply Rmult_le_compat_r; [lra|]. apply (Rmult_le_reg_r (m * k0)); [exact MK|].
    replace (A2 * (1 + a2 * x) * r * (m * k0)) with (A2 * k2 * (1 + a2 * x)) by (unfold r; field; lra). lra.
Qed.
Lemma fit_lower q n A0 a0 k0 d0 A1 a1 k1 d1 x :
  0 < A0 -> 0 < a0 -> 0 < k0 -> 0 < d0 -> 0 < A1 -> 0 < a1 -> 0 < k1 -> 0 < d1 -> 0 < x -> 0 < n -> k1 <= n * k0 -> d1 <= n * d0 ->
  q * n * A0 * k0 * (1 + a0 * x) <= A1 * k1 * (1 + a1 * x) -> q * fit A0 a0 k0 d0 x <= fit A1 a1 k1 d1 x.
Proof.
  intros HA0 Ha0 Hk0 Hd0 HA1 Ha1 Hk1 Hd1 Hx Hn Hk Hd H. set (r := k1 / (n * k0)). assert (MK : 0 < n * k0) by (apply Rmult_lt_0_compat; lra).
  assert (R : 0 <= r <= 1).
  { unfold r. split; [left; apply Rdiv_lt_0_compat; assumption|]. apply (Rmult_le_reg_r (n * k0)); [exact MK|]. unfold Rdiv. rewrite Rmult_assoc, Rinv_l by lra. lra. }
  assert (L : r * ln (1 + k0 / d0) <= ln (1 + k1 / d1)).
  { eapply Rle_trans; [apply ln_shrink; [exact R|left; apply Rdiv_lt_0_compat; assumption]|].
    assert (0 < k0 / d0) by (apply Rdiv_lt_0_compat; lra). assert (0 <= r * (k0 / d0)) by (apply Rmult_le_pos; lra).
    apply ln_le_mono; [lra|]. apply Rplus_le_compat_l.
    replace (r * (k0 / d0)) with (k1 / (n * d0)) by (unfold r; field; lra). apply div_swap; lra. }
  pose proof (ln_quot_pos k0 d0 Hk0 Hd0) as P. pose proof (lin_pos a1 x Ha1 Hx) as Q. unfold fit.
  apply Rle_trans with (A1 * (1 + a1 * x) * (r * ln (1 + k0 / d0))).
  - rewrite <- !Rmult_assoc. apply Rmult_le_compat_r; [lra|]. apply (Rmult_le_reg_r (n * k0)); [exact MK|].
    replace (A1 * (1 + a1 * x) * r * (n * k0)) with (A1 * k1 * (1 + a1 * x)) by (unfold r; field; lra). lra.
  - apply Rmult_le_compat_l; [|exact L]. left. apply Rmult_lt_0_compat; assumption.
Qed.

Definition den (c1 c2 c3 c4 x w : R) : R := c1 * sqrt x + c2 * x + c3 * (x * sqrt x) + c4 * w.
Lemma den_pos c1 c2 c3 c4 x w : 0 < c1 -> 0 < c2 -> 0 < c3 -> 0 < c4 -> 0 < x -> 0 < w -> 0 < den c1 c2 c3 c4 x w.
Proof.
  intros. assert (0 < sqrt x) by (apply sqrt_lt_R0; assumption). unfold den.
  repeat apply Rplus_lt_0_compat; repeat apply Rmult_lt_0_compat; assumption.
Qed.
Lemma den_le m c1 c2 c3 c4 e1 e2 e3 e4 x w : m * c1 <= e1 -> m * c2 <= e2 -> m * c3 <= e3 -> m * c4 <= e4 -> 0 < x -> 0 < w ->
  m * den c1 c2 c3 c4 x w <= den e1 e2 e3 e4 x w.
Proof.
  intros H1 H2 H3 H4 Hx Hw. assert (S : 0 < sqrt x) by (apply sqrt_lt_R0; assumption). assert (X : 0 < x * sqrt x) by (apply Rmult_lt_0_compat; assumption). unfold den.
  pose proof (Rmult_le_compat_r _ _ _ (Rlt_le _ _ S) H1). pose proof (Rmult_le_compat_r _ _ _ (Rlt_le _ _ Hx) H2).
  pose proof (Rmult_le_compat_r _ _ _ (Rlt_le _ _ X) H3). pose proof (Rmult_le_compat_r _ _ _ (Rlt_le _ _ Hw) H4). lra.
Qed.
(** For x <= 14 the smaller third coefficient is outweighed by the larger first one. *)
Lemma den_le_small c1 c2 c3 c4 e1 e2 e3 e4 x w : c2 <= e2 -> c4 <= e4 -> 0 < e3 -> (c3 - e3) * 14 <= e1 - c1 -> c1 <= e1 -> 0 < x <= 14 -> 0 < w ->
  den c1 c2 c3 c4 x w <= den e1 e2 e3 e4 x w.
Proof.
  intros H2 H4 H5 H3 H1 [Hx Hx'] Hw. assert (S : 0 < sqrt x) by (apply sqrt_lt_R0; assumption). unfold den.
  pose proof (Rmult_le_compat_r _ _ _ (Rlt_le _ _ Hx) H2). pose proof (Rmult_le_compat_r _ _ _ (Rlt_le _ _ Hw) H4).
  assert (G : (c3 - e3) * x <= e1 - c1). { destruct (Rle_lt_dec (c3 - e3) 0); nra. }
  pose proof (Rmult_le_compat_r _ _ _ (Rlt_le _ _ S) G). lra.
Qed.

Lemma pw_negative e0 e1 p z f : 0 < e0 -> (13/100) * e0 <= e1 -> p <= (87/100) * e0 -> 0 <= z <= 1 -> 0 <= f <= 73/64 ->
  - e0 + z * f * (- e1 + e0 - p) + f * p < 0.
Proof.
  intros H0 H1 Hp Hz Hf. assert (A : z * (e0 - e1) <= z * (87/100 * e0)) by (apply Rmult_le_compat_l; lra).
  assert (B : (1 - z) * p <= (1 - z) * (87/100 * e0)) by (apply Rmult_le_compat_l; lra).
  set (k := z * (e0 - e1) + (1 - z) * p). assert (K : k <= 87/100 * e0) by (unfold k; lra).
  replace (- e0 + z * f * (- e1 + e0 - p) + f * p) with (- e0 + f * k) by (unfold k; ring).
  assert (f * k <= f * (87/100 * e0)) by (apply Rmult_le_compat_l; lra).
  assert (f * (87/100 * e0) <= 73/64 * (87/100 * e0)) by (apply Rmult_le_compat_r; lra). lra.
Qed.

(** ** max (p, z)^(4/3) *)
Definition p43 (x : R) : R := Rcbrt x * x.
Lemma p43_tangent x : 0 <= x -> (4 * x - 1) / 3 <= p43 x.
Proof.
  intros H. unfold p43. set (c := Rcbrt x). assert (C : 0 <= c) by (apply Rcbrt_nonneg, H).
  assert (E : x = c * c * c) by (symmetry; apply Rcbrt_cube). rewrite E.
  assert (0 <= (c - 1) * (c - 1) * (3 * (c * c) + 2 * c + 1)).
  { apply Rmult_le_pos; [apply Rle_0_sqr|]. assert (0 <= c * c) by (apply Rle_0_sqr). lra. }
  lra.
Qed.
Lemma p43_le x : 0 <= x <= 2 -> p43 x <= Rcbrt 2 * x.
Proof. intros H. unfold p43. apply Rmult_le_compat_r; [lra|]. apply Rcbrt_le. lra. Qed.
Lemma p43_nonneg x : 0 <= x -> 0 <= p43 x.
Proof. intros H. apply Rmult_le_pos; [apply Rcbrt_nonneg, H|exact H]. Qed.
Lemma p43_mono x y : 0 <= x -> x <= y -> p43 x <= p43 y.
Proof. intros H L. apply Rmult_le_compat; [apply Rcbrt_nonneg, H|exact H|apply Rcbrt_le, L|exact L]. Qed.
Definition clamp43 (z p : R) : R := if Rleb p z then p43 z else p43 p.
Lemma clamp_sum z p m : 0 < z < 1 -> 0 <= p -> 0 <= m -> p + m = 2 ->
  2 <= clamp43 z p + clamp43 z m <= 2 * Rcbrt 2 + p43 z.
Proof.
  intros Hz Hp Hm E. assert (L : forall x, 0 <= x -> p43 x <= clamp43 z x).
  { intros x Hx. unfold clamp43, Rleb. destruct (Rle_dec x z); [apply p43_mono; assumption|lra]. }
  pose proof (L p Hp). pose proof (L m Hm). pose proof (p43_tangent p Hp). pose proof (p43_tangent m Hm). split; [lra|].
  pose proof (p43_nonneg z ltac:(lra)) as Z. assert (C : 0 <= Rcbrt 2) by (apply Rcbrt_nonneg; lra).
  pose proof (p43_le p ltac:(lra)) as P. pose proof (p43_le m ltac:(lra)) as M.
  assert (Rcbrt 2 * p + Rcbrt 2 * m = 2 * Rcbrt 2) by (rewrite <- Rmult_plus_distr_l, E; ring).
  assert (0 <= Rcbrt 2 * p) by (apply Rmult_le_pos; lra). assert (0 <= Rcbrt 2 * m) by (apply Rmult_le_pos; lra).
  unfold clamp43, Rleb. destruct (Rle_dec p z), (Rle_dec m z); lra.
Qed.
