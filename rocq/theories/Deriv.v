(** Differentiability of functions of several real variables: gradients and Hessians in the
    sense of Frechet, their uniqueness, and how they change under an orthogonal change of
    coordinates. *)
From Coq Require Import Reals Lra Lia Arith FunctionalExtensionality.
From Verif Require Import Vec.
Open Scope R_scope.

Section Dim.
Variable d : nat.

Definition norm (h : vec) : R := sqrt (dot d h h).
Lemma norm_nonneg h : 0 <= norm h.
Proof. apply sqrt_pos. Qed.
Lemma norm_sq h : norm h * norm h = dot d h h.
Proof. apply sqrt_sqrt, dot_self_nonneg. Qed.
Lemma dot_norm g h : Rabs (dot d g h) <= norm g * norm h.
Proof.
  apply Rsqr_incr_0; [|apply Rabs_pos|apply Rmult_le_pos; apply norm_nonneg].
  rewrite <- Rsqr_abs. unfold Rsqr.
  replace (norm g * norm h * (norm g * norm h)) with ((norm g * norm g) * (norm h * norm h)) by ring.
  rewrite !norm_sq. apply cauchy_schwarz.
Qed.

(** [e h] is o(|h|) as h goes to 0. *)
Definition small (e : vec -> R) : Prop :=
  forall eps, 0 < eps -> exists delta, 0 < delta /\ forall h, norm h < delta -> Rabs (e h) <= eps * norm h.

Lemma small_ext e f : (forall h, e h = f h) -> small e -> small f.
Proof. intros E H eps He. destruct (H eps He) as (dl & Hd & K). exists dl. split; [exact Hd|]. intros h Hh. rewrite <- E. auto. Qed.
Lemma small_zero : small (fun _ => 0).
Proof. intros eps He. exists 1. split; [lra|]. intros h _. rewrite Rabs_R0. apply Rmult_le_pos; [lra|apply norm_nonneg]. Qed.
Lemma small_add e f : small e -> small f -> small (fun h => e h + f h).
Proof.
  intros He Hf eps Hp. destruct (He (eps / 2)) as (d1 & Hd1 & K1); [lra|]. destruct (Hf (eps / 2)) as (d2 & Hd2 & K2); [lra|].
  exists (Rmin d1 d2). split; [apply Rmin_pos; assumption|]. intros h Hh.
  assert (norm h < d1) by (eapply Rlt_le_trans; [exact Hh|apply Rmin_l]).
  assert (norm h < d2) by (eapply Rlt_le_trans; [exact Hh|apply Rmin_r]).
  specialize (K1 h H). specialize (K2 h H0). pose proof (Rabs_triang (e h) (f h)). lra.
Qed.
Lemma small_scal c e : small e -> small (fun h => c * e h).
Proof.
  intros He eps Hp. destruct (He (eps / (Rabs c + 1))) as (dl & Hd & K).
  { apply Rdiv_lt_0_compat; [exact Hp|]. pose proof (Rabs_pos c). lra. }
  exists dl. split; [exact Hd|]. intros h Hh. rewrite Rabs_mult. specialize (K h Hh).
  pose proof (Rabs_pos c) as Hc. pose proof (norm_nonneg h) as Hn.
  apply Rle_trans with (Rabs c * (eps / (Rabs c + 1) * norm h)); [apply Rmult_le_compat_l; assumption|].
  replace (Rabs c * (eps / (Rabs c + 1) * norm h)) with ((Rabs c / (Rabs c + 1)) * (eps * norm h)) by (field; lra).
  rewrite <- (Rmult_1_l (eps * norm h)) at 2. apply Rmult_le_compat_r; [apply Rmult_le_pos; lra|].
  apply Rmult_le_reg_r with (Rabs c + 1); [lra|]. unfold Rdiv. rewrite Rmult_assoc, Rinv_l by lra. lra.
Qed.
Lemma small_rsum n (e : nat -> vec -> R) : (forall i, (i < n)%nat -> small (e i)) -> small (fun h => rsum n (fun i => e i h)).
Proof.
  induction n as [|n IH]; intros H; simpl; [apply small_zero|].
  apply (small_add (fun h => rsum n (fun i => e i h)) (e n)); [apply IH; intros; apply H; lia|apply H; lia].
Qed.

(** ** Gradients *)
Definition has_grad (f : vec -> R) (x g : vec) : Prop := small (fun h => f (vadd x h) - f x - dot d g h).

Lemma has_grad_const c x : has_grad (fun _ => c) x (fun _ => 0).
Proof.
  apply (small_ext (fun _ => 0)); [|apply small_zero]. intros h. unfold dot.
  rewrite (rsum_ext d (fun i => 0 * h i) (fun _ => 0)) by (intros; lra). rewrite rsum_zero. lra.
Qed.
Lemma has_grad_add f g x u v : has_grad f x u -> has_grad g x v -> has_grad (fun y => f y + g y) x (vadd u v).
Proof.
  intros Hf Hg. unfold has_grad. eapply small_ext; [|exact (small_add _ _ Hf Hg)].
  intros h. cbn. rewrite dot_add_l. lra.
Qed.
Lemma has_grad_scal c f x u : has_grad f x u -> has_grad (fun y => c * f y) x (vscal c u).
Proof.
  intros Hf. unfold has_grad. eapply small_ext; [|exact (small_scal c _ Hf)].
  intros h. cbn. rewrite dot_scal_l. lra.
Qed.
Lemma has_grad_rsum n (f : nat -> vec -> R) x (u : nat -> vec) : (forall k, (k < n)%nat -> has_grad (f k) x (u k)) ->
  has_grad (fun y => rsum n (fun k => f k y)) x (fun i => rsum n (fun k => u k i)).
Proof.
  induction n as [|n IH]; intros H; simpl; [apply has_grad_const|].
  apply (has_grad_add (fun y => rsum n (fun k => f k y)) (f n) x (fun i => rsum n (fun k => u k i)) (u n));
    [apply IH; intros; apply H; lia|apply H; lia].
Qed.
Lemma has_grad_ext f x u v : (forall i, (i < d)%nat -> u i = v i) -> has_grad f x u -> has_grad f x v.
Proof.
  intros E. apply small_ext. intros h. rewrite (dot_ext d u v h h E); [reflexivity|]. intros; reflexivity.
Qed.

Lemma has_grad_lip f x u : has_grad f x u -> exists delta, 0 < delta /\
  forall h, norm h < delta -> Rabs (f (vadd x h) - f x) <= (norm u + 1) * norm h.
Proof.
  intros Hf. destruct (Hf 1) as (dl & Hd & K); [lra|]. exists dl. split; [exact Hd|]. intros h Hh. specialize (K h Hh).
  pose proof (dot_norm u h).
  replace (f (vadd x h) - f x) with ((f (vadd x h) - f x - dot d u h) + dot d u h) by ring.
  pose proof (Rabs_triang (f (vadd x h) - f x - dot d u h) (dot d u h)). lra.
Qed.
Lemma has_grad_mult f g x u v : has_grad f x u -> has_grad g x v ->
  has_grad (fun y => f y * g y) x (fun i => f x * v i + g x * u i).
Proof.
  intros Hf Hg. unfold has_grad.
  assert (Hfg : small (fun h => (f (vadd x h) - f x) * (g (vadd x h) - g x))).
  { destruct (has_grad_lip f x u Hf) as (d1 & Hd1 & K1). destruct (has_grad_lip g x v Hg) as (d2 & Hd2 & K2).
    set (A := norm u + 1) in *. set (B := norm v + 1) in *.
    assert (HA : 0 < A) by (unfold A; pose proof (norm_nonneg u); lra).
    assert (HB : 0 < B) by (unfold B; pose proof (norm_nonneg v); lra).
    intros eps He. set (d3 := eps / (A * B)).
    assert (Hd3 : 0 < d3) by (apply Rdiv_lt_0_compat; [exact He|apply Rmult_lt_0_compat; assumption]).
    exists (Rmin (Rmin d1 d2) d3). split; [repeat apply Rmin_pos; assumption|]. intros h Hh.
    assert (H1 : norm h < d1) by (eapply Rlt_le_trans; [exact Hh|]; eapply Rle_trans; [apply Rmin_l|apply Rmin_l]).
    assert (H2 : norm h < d2) by (eapply Rlt_le_trans; [exact Hh|]; eapply Rle_trans; [apply Rmin_l|apply Rmin_r]).
    assert (H3 : norm h < d3) by (eapply Rlt_le_trans; [exact Hh|apply Rmin_r]).
    rewrite Rabs_mult. specialize (K1 h H1). specialize (K2 h H2). pose proof (norm_nonneg h) as Hn.
    apply Rle_trans with ((A * norm h) * (B * norm h)).
    - apply Rmult_le_compat; try apply Rabs_pos; assumption.
    - replace (A * norm h * (B * norm h)) with ((A * B * norm h) * norm h) by ring.
      apply Rmult_le_compat_r; [exact Hn|]. unfold d3 in H3.
      assert (0 < A * B) by (apply Rmult_lt_0_compat; assumption).
      apply Rmult_lt_compat_l with (r := A * B) in H3; [|assumption].
      replace (A * B * (eps / (A * B))) with eps in H3 by (field; lra). lra. }
  eapply small_ext; [|exact (small_add _ _ (small_add _ _ (small_scal (f x) _ Hg) (small_scal (g x) _ Hf)) Hfg)].
  intros h. cbn.
  assert (E : dot d (fun i => f x * v i + g x * u i) h = f x * dot d v h + g x * dot d u h).
  { change (fun i => f x * v i + g x * u i) with (vadd (vscal (f x) v) (vscal (g x) u)).
    rewrite dot_add_l, !dot_scal_l. reflexivity. }
  rewrite E. ring.
Qed.

Definition unit_vec (k : nat) : vec := fun i => if Nat.eq_dec i k then 1 else 0.
Lemma dot_unit g k t : (k < d)%nat -> dot d g (vscal t (unit_vec k)) = t * g k.
Proof.
  intros Hk. rewrite dot_scal_r. f_equal. rewrite dot_comm. unfold dot, unit_vec. apply rsum_delta, Hk.
Qed.
Lemma norm_unit k t : (k < d)%nat -> 0 <= t -> norm (vscal t (unit_vec k)) = t.
Proof.
  intros Hk Ht. unfold norm. rewrite dot_unit by exact Hk. unfold vscal, unit_vec.
  destruct (Nat.eq_dec k k); [|contradiction]. rewrite Rmult_1_r. apply sqrt_square, Ht.
Qed.
Lemma has_grad_unique f x u v : has_grad f x u -> has_grad f x v -> forall i, (i < d)%nat -> u i = v i.
Proof.
  intros Hu Hv i Hi. apply Rminus_diag_uniq. destruct (Req_dec (u i - v i) 0) as [E|E]; [exact E|exfalso].
  set (w := Rabs (u i - v i)). assert (Hw : 0 < w) by (apply Rabs_pos_lt, E).
  destruct (small_add _ _ Hu (small_scal (-1) _ Hv) (w / 2)) as (dl & Hd & K); [lra|].
  set (h := vscal (dl / 2) (unit_vec i)). assert (Hn : norm h = dl / 2) by (apply norm_unit; [exact Hi|lra]).
  specialize (K h). rewrite Hn in K. specialize (K ltac:(lra)).
  replace (f (vadd x h) - f x - dot d u h + -1 * (f (vadd x h) - f x - dot d v h)) with (dl / 2 * (v i - u i)) in K
    by (unfold h; rewrite !dot_unit by exact Hi; ring).
  rewrite Rabs_mult, (Rabs_pos_eq (dl / 2)), Rabs_minus_sym in K by lra. fold w in K.
  assert (0 < dl / 2 * w) by (apply Rmult_lt_0_compat; lra). lra.
Qed.

(** ** Orthogonal changes of coordinates *)
Definition tmulv (Q : mat) (g : vec) : vec := fun j => rsum d (fun i => Q i j * g i).
Definition move (Q : mat) (t x : vec) : vec := vadd (mulv d Q x) t.

Lemma mulv_add Q x h : mulv d Q (vadd x h) = vadd (mulv d Q x) (mulv d Q h).
Proof. apply functional_extensionality. intros i. unfold mulv, vadd. rewrite <- rsum_plus. apply rsum_ext. intros; lra. Qed.
Lemma move_add Q t x h : move Q t (vadd x h) = vadd (move Q t x) (mulv d Q h).
Proof. unfold move. rewrite mulv_add. apply functional_extensionality. intros i. unfold vadd. lra. Qed.
Lemma dot_tmulv Q g h : dot d (tmulv Q g) h = dot d g (mulv d Q h).
Proof.
  unfold dot, tmulv, mulv.
  transitivity (rsum d (fun i => rsum d (fun j => Q j i * g j * h i))).
  - apply rsum_ext. intros i _. rewrite Rmult_comm, <- rsum_scal. apply rsum_ext. intros; lra.
  - rewrite rsum_swap. apply rsum_ext. intros j _. rewrite <- rsum_scal. apply rsum_ext. intros; lra.
Qed.
Lemma norm_mulv Q h : orthogonal d Q -> norm (mulv d Q h) = norm h.
Proof. intros HQ. unfold norm. rewrite orthogonal_dot by exact HQ. reflexivity. Qed.

Lemma has_grad_move f Q t x g : orthogonal d Q -> has_grad f (move Q t x) g ->
  has_grad (fun y => f (move Q t y)) x (tmulv Q g).
Proof.
  intros HQ Hf eps He. destruct (Hf eps He) as (dl & Hd & K). exists dl. split; [exact Hd|]. intros h Hh.
  rewrite move_add, dot_tmulv. specialize (K (mulv d Q h)). rewrite norm_mulv in K by exact HQ. auto.
Qed.

(** ** Second derivatives: the function has a gradient near x, which is differentiable at x. *)
Definition has_hess (f : vec -> R) (x : vec) (H : nat -> nat -> R) : Prop :=
  exists G : vec -> vec,
    (exists delta, 0 < delta /\ forall h, norm h < delta -> has_grad f (vadd x h) (G (vadd x h))) /\
    forall i, (i < d)%nat -> has_grad (fun y => G y i) x (H i).

Lemma small_ext_near delta e f : 0 < delta -> (forall h, norm h < delta -> e h = f h) -> small e -> small f.
Proof.
  intros Hd E H eps He. destruct (H eps He) as (dl & Hdl & K). exists (Rmin dl delta).
  split; [apply Rmin_pos; assumption|]. intros h Hh.
  assert (norm h < dl) by (eapply Rlt_le_trans; [exact Hh|apply Rmin_l]).
  assert (norm h < delta) by (eapply Rlt_le_trans; [exact Hh|apply Rmin_r]).
  rewrite <- E by assumption. auto.
Qed.
Lemma vadd_zero x : vadd x (fun _ => 0) = x.
Proof. apply functional_extensionality. intros i. unfold vadd. lra. Qed.
Lemma norm_zero : norm (fun _ => 0) = 0.
Proof.
  unfold norm, dot. rewrite (rsum_ext d (fun _ => 0 * 0) (fun _ => 0)) by (intros; lra).
  rewrite rsum_zero. apply sqrt_0.
Qed.

Lemma has_hess_unique f x H K : has_hess f x H -> has_hess f x K ->
  forall i j, (i < d)%nat -> (j < d)%nat -> H i j = K i j.
Proof.
  intros (G & (d1 & Hd1 & HG) & HH) (L & (d2 & Hd2 & HL) & HK) i j Hi Hj.
  apply (has_grad_unique (fun y => G y i) x); [apply HH, Hi| |exact Hj].
  assert (EG : forall h, norm h < Rmin d1 d2 -> G (vadd x h) i = L (vadd x h) i).
  { intros h Hh. apply (has_grad_unique f (vadd x h)); [apply HG|apply HL|exact Hi].
    - eapply Rlt_le_trans; [exact Hh|apply Rmin_l].
    - eapply Rlt_le_trans; [exact Hh|apply Rmin_r]. }
  assert (Hm : 0 < Rmin d1 d2) by (apply Rmin_pos; assumption).
  eapply (small_ext_near (Rmin d1 d2)); [exact Hm| |apply (HK i Hi)]. intros h Hh. cbn.
  assert (E0 : G x i = L x i).
  { rewrite <- (vadd_zero x). apply EG. rewrite norm_zero. exact Hm. }
  rewrite (EG h Hh), E0. reflexivity.
Qed.
Definition hess_move (Q : mat) (H : nat -> nat -> R) : nat -> nat -> R :=
  fun i => tmulv Q (fun l => rsum d (fun k => Q k i * H k l)).
Lemma has_hess_move f Q t x H : orthogonal d Q -> has_hess f (move Q t x) H ->
  has_hess (fun y => f (move Q t y)) x (hess_move Q H).
Proof.
  intros HQ (G & (dl & Hd & HG) & HH). exists (fun y => tmulv Q (G (move Q t y))). split.
  - exists dl. split; [exact Hd|]. intros h Hh. apply has_grad_move; [exact HQ|].
    rewrite move_add. apply HG. rewrite norm_mulv by exact HQ. exact Hh.
  - intros i Hi. unfold hess_move.
    apply (has_grad_move (fun z => tmulv Q (G z) i) Q t x (fun l => rsum d (fun k => Q k i * H k l)) HQ).
    unfold tmulv. apply (has_grad_rsum d (fun k y => Q k i * G y k) (move Q t x) (fun k l => Q k i * H k l)).
    intros k Hk. apply (has_grad_scal (Q k i) (fun y => G y k) (move Q t x) (H k)). apply HH, Hk.
Qed.

(** ** Invariants.  A matrix whose transpose is its inverse. *)
Definition transpose (Q : mat) : mat := fun i j => Q j i.
Definition isometry (Q : mat) : Prop := orthogonal d Q /\ orthogonal d (transpose Q).

Lemma tmulv_dot Q u v : isometry Q -> dot d (tmulv Q u) (tmulv Q v) = dot d u v.
Proof. intros [_ HQ]. exact (orthogonal_dot d (transpose Q) u v HQ). Qed.
Lemma hess_move_trace Q H : isometry Q -> rsum d (fun i => hess_move Q H i i) = rsum d (fun i => H i i).
Proof.
  intros [_ HQ]. unfold hess_move, tmulv.
  transitivity (rsum d (fun l => rsum d (fun k => (if Nat.eq_dec k l then 1 else 0) * H k l))).
  - rewrite rsum_swap. apply rsum_ext. intros l Hl.
    transitivity (rsum d (fun i => rsum d (fun k => Q l i * Q k i * H k l))).
    { apply rsum_ext. intros i _. rewrite <- rsum_scal. apply rsum_ext. intros; lra. }
    rewrite rsum_swap. apply rsum_ext. intros k Hk.
    transitivity (rsum d (fun i => H k l * (transpose Q i k * transpose Q i l))).
    { apply rsum_ext. intros; unfold transpose; lra. }
    rewrite rsum_scal, (HQ k l Hk Hl). destruct (Nat.eq_dec k l); lra.
  - apply rsum_ext. intros l Hl. apply (rsum_delta d l (fun k => H k l) Hl).
Qed.
End Dim.
