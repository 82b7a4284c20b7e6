(** Finite sums, vectors and matrices over the reals, as functions on indices. *)
From Coq Require Import Reals List Lra Lia Arith.
Import ListNotations.
Open Scope R_scope.

Fixpoint rsum (n : nat) (f : nat -> R) : R :=
  match n with O => 0 | S n => rsum n f + f n end.

Lemma rsum_ext n f g : (forall i, (i < n)%nat -> f i = g i) -> rsum n f = rsum n g.
Proof.
  induction n as [|n IH]; simpl; intros H; [reflexivity|].
  rewrite IH by (intros; apply H; lia). rewrite H by lia. reflexivity.
Qed.
Lemma rsum_plus n f g : rsum n (fun i => f i + g i) = rsum n f + rsum n g.
Proof. induction n as [|n IH]; simpl; [lra|]. rewrite IH. lra. Qed.
Lemma rsum_scal n c f : rsum n (fun i => c * f i) = c * rsum n f.
Proof. induction n as [|n IH]; simpl; [lra|]. rewrite IH. lra. Qed.
Lemma rsum_zero n : rsum n (fun _ => 0) = 0.
Proof. induction n as [|n IH]; simpl; [reflexivity|]. rewrite IH. lra. Qed.
Lemma rsum_minus n f g : rsum n (fun i => f i - g i) = rsum n f - rsum n g.
Proof. induction n as [|n IH]; simpl; [lra|]. rewrite IH. lra. Qed.
Lemma rsum_swap n m f : rsum n (fun i => rsum m (fun j => f i j)) = rsum m (fun j => rsum n (fun i => f i j)).
Proof.
  induction n as [|n IH]; simpl; [symmetry; apply rsum_zero|].
  rewrite IH, <- rsum_plus. reflexivity.
Qed.
Lemma rsum_nonneg n f : (forall i, (i < n)%nat -> 0 <= f i) -> 0 <= rsum n f.
Proof.
  induction n as [|n IH]; simpl; intros H; [lra|].
  assert (0 <= rsum n f) by (apply IH; intros; apply H; lia). assert (0 <= f n) by (apply H; lia). lra.
Qed.
Lemma rsum_le n f g : (forall i, (i < n)%nat -> f i <= g i) -> rsum n f <= rsum n g.
Proof.
  intros H. cut (0 <= rsum n (fun i => g i - f i)); [rewrite rsum_minus; lra|].
  apply rsum_nonneg. intros i Hi. specialize (H i Hi). lra.
Qed.
Lemma rsum_one n k (c : R) : (k < n)%nat -> rsum n (fun i => if Nat.eq_dec i k then c else 0) = c.
Proof.
  induction n as [|n IH]; simpl; intros H; [lia|]. destruct (Nat.eq_dec n k) as [->|Hne].
  - rewrite (rsum_ext k _ (fun _ => 0)); [rewrite rsum_zero; lra|].
    intros i Hi. destruct (Nat.eq_dec i k); [lia|reflexivity].
  - rewrite IH by lia. lra.
Qed.
Lemma rsum_delta n k f : (k < n)%nat -> rsum n (fun i => (if Nat.eq_dec i k then 1 else 0) * f i) = f k.
Proof.
  intros H. rewrite <- (rsum_one n k (f k) H). apply rsum_ext. intros i _.
  destruct (Nat.eq_dec i k) as [->|]; lra.
Qed.

Definition vec := nat -> R.
Definition dot (d : nat) (u v : vec) : R := rsum d (fun i => u i * v i).
Definition vadd (u v : vec) : vec := fun i => u i + v i.
Definition vscal (c : R) (u : vec) : vec := fun i => c * u i.

Lemma dot_comm d u v : dot d u v = dot d v u.
Proof. apply rsum_ext. intros; lra. Qed.
Lemma dot_add_l d u v w : dot d (vadd u v) w = dot d u w + dot d v w.
Proof. unfold dot, vadd. rewrite <- rsum_plus. apply rsum_ext. intros; lra. Qed.
Lemma dot_add_r d u v w : dot d w (vadd u v) = dot d w u + dot d w v.
Proof. rewrite dot_comm, dot_add_l, !(dot_comm d w). reflexivity. Qed.
Lemma dot_scal_l d c u w : dot d (vscal c u) w = c * dot d u w.
Proof. unfold dot, vscal. rewrite <- rsum_scal. apply rsum_ext. intros; lra. Qed.
Lemma dot_scal_r d c u w : dot d w (vscal c u) = c * dot d w u.
Proof. rewrite dot_comm, dot_scal_l, (dot_comm d w). reflexivity. Qed.
Lemma dot_self_nonneg d u : 0 <= dot d u u.
Proof. apply rsum_nonneg. intros. nra. Qed.
Lemma dot_ext d u u' v v' : (forall i, (i < d)%nat -> u i = u' i) -> (forall i, (i < d)%nat -> v i = v' i) ->
  dot d u v = dot d u' v'.
Proof. intros Hu Hv. apply rsum_ext. intros i Hi. rewrite Hu, Hv by exact Hi. reflexivity. Qed.

Lemma cauchy_schwarz d u v : dot d u v * dot d u v <= dot d u u * dot d v v.
Proof.
  set (a := dot d u u). set (b := dot d u v). set (c := dot d v v).
  assert (Ha : 0 <= a) by apply dot_self_nonneg. assert (Hc : 0 <= c) by apply dot_self_nonneg.
  assert (Hq : forall x y : R, 0 <= x * x * a + 2 * x * y * b + y * y * c).
  { intros x y. pose proof (dot_self_nonneg d (vadd (vscal x u) (vscal y v))) as H.
    rewrite dot_add_l, !dot_add_r, !dot_scal_l, !dot_scal_r, (dot_comm d v u) in H.
    fold a b c in H. lra. }
  destruct (Req_EM_T c 0) as [E|E].
  - pose proof (Hq 1 (- b * (a + 1))) as H. rewrite E in H.
    assert (Hb : b * b = 0); [|rewrite E; nra].
    assert (Hbb : 0 <= b * b) by nra.
    pose proof (Hq b (- (a + 1))) as H2. rewrite E in H2.
    assert (b * b * (a + 2) <= 0) by nra. nra.
  - assert (Hc' : 0 < c) by lra. pose proof (Hq c (- b)) as H.
    assert (H' : 0 <= c * (a * c - b * b)) by nra.
    apply Rmult_le_reg_l with c; [exact Hc'|]. nra.
Qed.

(** Square matrices acting on vectors. *)
Definition mat := nat -> nat -> R.
Definition mulv (d : nat) (Q : mat) (v : vec) : vec := fun i => rsum d (fun j => Q i j * v j).
Definition orthogonal (d : nat) (Q : mat) : Prop :=
  forall j k, (j < d)%nat -> (k < d)%nat ->
    rsum d (fun i => Q i j * Q i k) = if Nat.eq_dec j k then 1 else 0.

Lemma orthogonal_dot d Q u v : orthogonal d Q -> dot d (mulv d Q u) (mulv d Q v) = dot d u v.
Proof.
  intros HQ. unfold dot, mulv.
  transitivity (rsum d (fun i => rsum d (fun j => rsum d (fun k => Q i j * Q i k * (u j * v k))))).
  { apply rsum_ext. intros i _. rewrite <- rsum_scal.
    transitivity (rsum d (fun k => rsum d (fun j => Q i j * Q i k * (u j * v k)))).
    - apply rsum_ext. intros k _. rewrite Rmult_comm, <- rsum_scal. apply rsum_ext. intros; lra.
    - apply rsum_swap. }
  rewrite rsum_swap. apply rsum_ext. intros j Hj. rewrite rsum_swap.
  transitivity (rsum d (fun k => (if Nat.eq_dec k j then 1 else 0) * (u j * v k))).
  - apply rsum_ext. intros k Hk.
    transitivity (rsum d (fun i => (u j * v k) * (Q i j * Q i k))); [apply rsum_ext; intros; lra|].
    rewrite rsum_scal, (HQ j k Hj Hk). destruct (Nat.eq_dec j k), (Nat.eq_dec k j); try lra; congruence.
  - apply (rsum_delta d j (fun k => u j * v k) Hj).
Qed.
