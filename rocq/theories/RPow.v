(** Rational powers of reals, defined exactly where they make sense:
    negative bases admit exponents with odd denominator. *)
From Coq Require Import Reals ZArith QArith Qreals Qcanon Lra Lia Bool.
From Verif Require Import Bytes Syntax Semantics.
Open Scope R_scope.

Definition qodd (q : Q) : bool := Z.odd (Zpos (Qden (Qred q))).
Definition qnum_even (q : Q) : bool := Z.even (Qnum (Qred q)).

Definition qpow (x : R) (q : Q) : option R :=
  if Rlt_dec 0 x then Some (Rpower x (Q2R q))
  else if Req_EM_T x 0 then
    match Qcompare q 0 with Gt => Some 0 | Eq => Some 1 | Lt => None end
  else if qodd q then
    Some ((if qnum_even q then 1 else -1) * Rpower (- x) (Q2R q))
  else None.

(** ** Parity of reduced fractions *)
Lemma Qred_gcd q : Z.gcd (Qnum (Qred q)) (Zpos (Qden (Qred q))) = 1%Z.
Proof. apply Qred_iff. apply Qred_involutive. Qed.

Lemma parity_rep q n d :
  (q == n # d)%Q -> Z.odd (Zpos d) = true ->
  qodd q = true /\ qnum_even q = Z.even n.
Proof.
  intros Hq Hd. unfold qodd, qnum_even.
  assert (Hr : (Qred q == n # d)%Q) by (rewrite Qred_correct; exact Hq).
  pose proof (Qred_gcd q) as Hg.
  destruct (Qred q) as [a b]. unfold Qeq in Hr. cbn [Qnum Qden] in *.
  assert (Hb : Z.odd (Zpos b) = true).
  { destruct (Z.odd (Zpos b)) eqn:Eb; [reflexivity|exfalso].
    assert (Ea : Z.even a = true).
    { assert (E : Z.even (a * Zpos d) = true).
      { rewrite Hr, Z.even_mul. rewrite <- (Z.negb_odd (Zpos b)), Eb. apply orb_true_r. }
      rewrite Z.even_mul in E. rewrite <- (Z.negb_odd (Zpos d)), Hd in E.
      rewrite orb_false_r in E. exact E. }
    rewrite <- Z.negb_even, negb_false_iff in Eb.
    apply Z.even_spec in Ea. apply Z.even_spec in Eb.
    destruct Ea as [k Hk]. destruct Eb as [m Hm].
    assert (Hdiv : (2 | Z.gcd a (Zpos b))%Z).
    { apply Z.gcd_greatest; [exists k|exists m]; lia. }
    rewrite Hg in Hdiv. destruct Hdiv as [z Hz]. lia. }
  split; [exact Hb|].
  assert (E : Z.even (a * Zpos d) = Z.even (n * Zpos b)) by (rewrite Hr; reflexivity).
  rewrite !Z.even_mul in E. rewrite <- !(Z.negb_odd (Zpos _)), Hd, Hb in E.
  rewrite !orb_false_r in E. exact E.
Qed.

Lemma parity_red q :
  qodd q = true -> exists n d, (q == n # d)%Q /\ Z.odd (Zpos d) = true /\ qnum_even q = Z.even n.
Proof.
  intros H. exists (Qnum (Qred q)), (Qden (Qred q)). split; [|split].
  - rewrite <- (Qred_correct q) at 1. destruct (Qred q); reflexivity.
  - exact H.
  - reflexivity.
Qed.

Lemma qodd_add a b : qodd a = true -> qodd b = true ->
  qodd (a + b) = true /\ qnum_even (a + b) = Bool.eqb (qnum_even a) (qnum_even b).
Proof.
  intros Ha Hb.
  destruct (parity_red a Ha) as (n1 & d1 & E1 & O1 & P1).
  destruct (parity_red b Hb) as (n2 & d2 & E2 & O2 & P2).
  destruct (parity_rep (a + b) (n1 * Zpos d2 + n2 * Zpos d1) (d1 * d2)) as [Ho He].
  - rewrite E1, E2. reflexivity.
  - rewrite Pos2Z.inj_mul, Z.odd_mul, O1, O2. reflexivity.
  - split; [exact Ho|]. rewrite He, P1, P2, Z.even_add, !Z.even_mul.
    rewrite <- !(Z.negb_odd (Zpos _)), O1, O2. simpl. rewrite !orb_false_r. reflexivity.
Qed.

Lemma qodd_mul a b : qodd a = true -> qodd b = true ->
  qodd (a * b) = true /\ qnum_even (a * b) = (qnum_even a || qnum_even b)%bool.
Proof.
  intros Ha Hb.
  destruct (parity_red a Ha) as (n1 & d1 & E1 & O1 & P1).
  destruct (parity_red b Hb) as (n2 & d2 & E2 & O2 & P2).
  destruct (parity_rep (a * b) (n1 * n2) (d1 * d2)) as [Ho He].
  - rewrite E1, E2. reflexivity.
  - rewrite Pos2Z.inj_mul, Z.odd_mul, O1, O2. reflexivity.
  - split; [exact Ho|]. rewrite He, P1, P2, Z.even_mul. reflexivity.
Qed.

Lemma qodd_opp a : qodd a = true -> qodd (- a) = true /\ qnum_even (- a) = qnum_even a.
Proof.
  intros Ha. destruct (parity_red a Ha) as (n1 & d1 & E1 & O1 & P1).
  destruct (parity_rep (- a) (- n1) d1) as [Ho He]; [rewrite E1; reflexivity|exact O1|].
  split; [exact Ho|]. rewrite He, P1. apply Z.even_opp.
Qed.

Lemma qodd_compat a b : (a == b)%Q -> qodd a = qodd b /\ qnum_even a = qnum_even b.
Proof. intros H. unfold qodd, qnum_even. rewrite (Qred_complete _ _ H). auto. Qed.

(** ** Basic facts *)
Lemma Q2R_mult' a b : Q2R (a * b) = Q2R a * Q2R b.
Proof. apply Q2R_mult. Qed.
Lemma Q2R_0 : Q2R 0 = 0.
Proof. unfold Q2R; simpl; lra. Qed.
Lemma Q2R_1 : Q2R 1 = 1.
Proof. unfold Q2R; simpl; lra. Qed.
Lemma Q2R_Z z : Q2R (z # 1) = IZR z.
Proof. unfold Q2R; simpl; lra. Qed.
Lemma Q2R_pos q : (0 < q)%Q -> 0 < Q2R q.
Proof. intros H. rewrite <- Q2R_0. apply Qlt_Rlt, H. Qed.
Lemma Q2R_neg q : (q < 0)%Q -> Q2R q < 0.
Proof. intros H. rewrite <- Q2R_0. apply Qlt_Rlt, H. Qed.

Lemma Rpower_pos x y : 0 < Rpower x y.
Proof. unfold Rpower. apply exp_pos. Qed.
Lemma Rpower_1_l y : Rpower 1 y = 1.
Proof. unfold Rpower. rewrite ln_1, Rmult_0_r. apply exp_0. Qed.

Ltac split_pow x :=
  destruct (Rlt_dec 0 x) as [?Hpos|?Hnp];
  [|destruct (Req_EM_T x 0) as [?Hz|?Hnz]].

Lemma qpow_compat x a b : (a == b)%Q -> qpow x a = qpow x b.
Proof.
  intros H. unfold qpow. rewrite (Qeq_eqR _ _ H).
  destruct (qodd_compat a b H) as [-> ->].
  assert (E : (a ?= 0)%Q = (b ?= 0)%Q) by (rewrite H; reflexivity).
  rewrite E. reflexivity.
Qed.

Lemma qpow_red x a : qpow x (Qred a) = qpow x a.
Proof. apply qpow_compat, Qred_correct. Qed.

Lemma qpow_1 x : qpow x 1 = Some x.
Proof.
  unfold qpow. split_pow x.
  - rewrite Q2R_1, Rpower_1 by assumption. reflexivity.
  - simpl. congruence.
  - replace (qodd 1) with true by reflexivity. replace (qnum_even 1) with false by reflexivity.
    rewrite Q2R_1, Rpower_1 by lra. f_equal. lra.
Qed.

Lemma qpow_0 x : qpow x 0 = Some 1.
Proof.
  unfold qpow. split_pow x.
  - rewrite Q2R_0, Rpower_O by assumption. reflexivity.
  - reflexivity.
  - replace (qodd 0) with true by reflexivity. replace (qnum_even 0) with true by reflexivity.
    rewrite Q2R_0, Rpower_O by lra. f_equal. lra.
Qed.

Lemma qpow_add x a b u v :
  qpow x a = Some u -> qpow x b = Some v -> qpow x (a + b) = Some (u * v).
Proof.
  unfold qpow. split_pow x; intros Ha Hb.
  - injection Ha as <-. injection Hb as <-. rewrite Q2R_plus, Rpower_plus. reflexivity.
  - destruct (Qcompare_spec a 0) as [Ea|Ea|Ea]; [|discriminate|];
    (destruct (Qcompare_spec b 0) as [Eb|Eb|Eb]; [|discriminate|]);
    injection Ha as <-; injection Hb as <-.
    + assert (E : (a + b == 0)%Q) by (rewrite Ea, Eb; reflexivity).
      apply Qeq_alt in E. rewrite E. f_equal; lra.
    + assert (E : (a + b > 0)%Q) by (rewrite Ea, Qplus_0_l; exact Eb).
      apply Qgt_alt in E. rewrite E. f_equal; lra.
    + assert (E : (a + b > 0)%Q) by (rewrite Eb, Qplus_0_r; exact Ea).
      apply Qgt_alt in E. rewrite E. f_equal; lra.
    + assert (E : (a + b > 0)%Q).
      { apply Qlt_trans with (a + 0)%Q; [rewrite Qplus_0_r; exact Ea|].
        apply Qplus_lt_r. exact Eb. }
      apply Qgt_alt in E. rewrite E. f_equal; lra.
  - destruct (qodd a) eqn:Oa; [|discriminate]. destruct (qodd b) eqn:Ob; [|discriminate].
    injection Ha as <-. injection Hb as <-.
    destruct (qodd_add a b Oa Ob) as [-> ->].
    rewrite Q2R_plus, Rpower_plus. f_equal.
    destruct (qnum_even a), (qnum_even b); simpl; ring.
Qed.

Lemma qpow_pos x q : 0 < x -> exists u, qpow x q = Some u /\ 0 < u.
Proof.
  intros H. unfold qpow. destruct (Rlt_dec 0 x); [|lra].
  eexists; split; [reflexivity|apply Rpower_pos].
Qed.

Lemma qpow_nonneg x q u : 0 <= x -> qpow x q = Some u -> 0 <= u.
Proof.
  intros H. unfold qpow. split_pow x; intros E.
  - injection E as <-. left; apply Rpower_pos.
  - destruct (q ?= 0)%Q; inversion E; lra.
  - lra.
Qed.

Lemma qpow_even x q u : qodd q = true -> qnum_even q = true -> qpow x q = Some u -> 0 <= u.
Proof.
  intros Ho He. unfold qpow. split_pow x; intros E.
  - injection E as <-. left; apply Rpower_pos.
  - destruct (q ?= 0)%Q; inversion E; lra.
  - rewrite Ho, He in E. injection E as <-.
    pose proof (Rpower_pos (- x) (Q2R q)). lra.
Qed.

Lemma qpow_nz x q u : qpow x q = Some u -> x <> 0 -> u <> 0.
Proof.
  unfold qpow. split_pow x; intros E Hx.
  - injection E as <-. pose proof (Rpower_pos x (Q2R q)). lra.
  - contradiction.
  - destruct (qodd q); [|discriminate]. injection E as <-.
    pose proof (Rpower_pos (- x) (Q2R q)). destruct (qnum_even q); lra.
Qed.

Lemma qpow_nz_inv x q u : qpow x q = Some u -> u <> 0 -> (q == 0)%Q \/ x <> 0.
Proof.
  unfold qpow. split_pow x; intros E Hu.
  - right; lra.
  - destruct (Qcompare_spec q 0) as [E0|E0|E0]; [left; exact E0|discriminate|].
    injection E as <-. lra.
  - right; exact Hnz.
Qed.

Lemma qpow_neg_nz x q u : qpow x q = Some u -> (q < 0)%Q -> x <> 0.
Proof.
  unfold qpow. split_pow x; intros E Hq; [lra| |exact Hnz].
  rewrite Qlt_alt in Hq. rewrite Hq in E. discriminate.
Qed.

Lemma qpow_zero q : (0 < q)%Q -> qpow 0 q = Some 0.
Proof.
  intros H. unfold qpow. destruct (Rlt_dec 0 0); [lra|]. destruct (Req_EM_T 0 0); [|lra].
  apply Qgt_alt in H. rewrite H. reflexivity.
Qed.

Lemma qpow_opp x a u : qpow x a = Some u -> u <> 0 -> qpow x (- a) = Some (/ u).
Proof.
  intros Ha Hu. destruct (qpow_nz_inv x a u Ha Hu) as [E|Hx].
  - rewrite (qpow_compat _ _ _ E), qpow_0 in Ha. injection Ha as <-.
    assert (E' : (- a == 0)%Q) by (rewrite E; reflexivity).
    rewrite (qpow_compat _ _ _ E'), qpow_0. f_equal. lra.
  - revert Ha. unfold qpow. split_pow x; intros Ha.
    + injection Ha as <-. rewrite Q2R_opp, Rpower_Ropp. reflexivity.
    + contradiction.
    + destruct (qodd a) eqn:Oa; [|discriminate]. destruct (qodd_opp a Oa) as [-> ->].
      injection Ha as <-. rewrite Q2R_opp, Rpower_Ropp.
      pose proof (Rpower_pos (- x) (Q2R a)).
      f_equal. destruct (qnum_even a); field; lra.
Qed.

(** Subtracting an exponent. *)
Lemma qpow_sub x a b u v :
  qpow x a = Some u -> qpow x b = Some v -> x <> 0 -> qpow x (a - b) = Some (u / v).
Proof.
  intros Ha Hb Hx.
  pose proof (qpow_nz x b v Hb Hx) as Hv.
  pose proof (qpow_opp x b v Hb Hv) as Hb'.
  exact (qpow_add x a (- b) u (/ v) Ha Hb').
Qed.

Lemma qpow_mul x a b u w :
  qpow x a = Some u -> qpow u b = Some w -> (qodd b = true \/ 0 <= x) ->
  qpow x (a * b) = Some w.
Proof.
  intros Ha Hb Hc.
  destruct (Rlt_dec 0 x) as [Hx|Hx].
  { (* x > 0 *)
    unfold qpow in *. destruct (Rlt_dec 0 x); [|lra]. injection Ha as <-.
    pose proof (Rpower_pos x (Q2R a)).
    destruct (Rlt_dec 0 (Rpower x (Q2R a))); [|lra]. injection Hb as <-.
    rewrite Q2R_mult, Rpower_mult. reflexivity. }
  destruct (Req_EM_T x 0) as [Hx0|Hx0].
  { (* x = 0 *)
    subst x. unfold qpow in Ha. destruct (Rlt_dec 0 0); [lra|]. destruct (Req_EM_T 0 0); [|lra].
    destruct (Qcompare_spec a 0) as [Ea|Ea|Ea]; [|discriminate|].
    - injection Ha as <-.
      assert (E : (a * b == 0)%Q) by (rewrite Ea; ring).
      rewrite (qpow_compat _ _ _ E), qpow_0.
      unfold qpow in Hb. destruct (Rlt_dec 0 1); [|lra]. rewrite Rpower_1_l in Hb. exact Hb.
    - injection Ha as <-. unfold qpow in Hb.
      destruct (Rlt_dec 0 0); [lra|]. destruct (Req_EM_T 0 0); [|lra].
      destruct (Qcompare_spec b 0) as [Eb|Eb|Eb]; [|discriminate|]; injection Hb as <-.
      + assert (E : (a * b == 0)%Q) by (rewrite Eb; ring).
        rewrite (qpow_compat _ _ _ E), qpow_0. reflexivity.
      + apply qpow_zero.
        setoid_replace 0%Q with (0 * b)%Q by ring. apply Qmult_lt_compat_r; assumption. }
  (* x < 0 *)
  destruct Hc as [Ob|Hc]; [|lra].
  unfold qpow in Ha. destruct (Rlt_dec 0 x); [lra|]. destruct (Req_EM_T x 0); [lra|].
  destruct (qodd a) eqn:Oa; [|discriminate]. injection Ha as <-.
  destruct (qodd_mul a b Oa Ob) as [Hm He].
  pose proof (Rpower_pos (- x) (Q2R a)) as Hp.
  unfold qpow at 1. destruct (Rlt_dec 0 x); [lra|]. destruct (Req_EM_T x 0); [lra|].
  rewrite Hm, He. rewrite Q2R_mult, <- Rpower_mult.
  unfold qpow in Hb.
  destruct (qnum_even a) eqn:Pa; simpl.
  - rewrite Rmult_1_l in *. destruct (Rlt_dec 0 (Rpower (- x) (Q2R a))); [|lra]. exact Hb.
  - destruct (Rlt_dec 0 (-1 * Rpower (- x) (Q2R a))); [lra|].
    destruct (Req_EM_T (-1 * Rpower (- x) (Q2R a)) 0); [lra|].
    rewrite Ob in Hb. rewrite <- Hb. do 3 f_equal. lra.
Qed.

(** Distributing a power over a product. *)
Lemma qpow_mult x y b w :
  qpow (x * y) b = Some w -> (qodd b = true \/ (0 <= x /\ 0 <= y)) ->
  exists u v, qpow x b = Some u /\ qpow y b = Some v /\ w = u * v.
Proof.
  intros H Hc.
  destruct (Req_EM_T (x * y) 0) as [Hz|Hz].
  { rewrite Hz in H. unfold qpow in H at 1.
    destruct (Rlt_dec 0 0); [lra|]. destruct (Req_EM_T 0 0); [|lra].
    destruct (Qcompare_spec b 0) as [Eb|Eb|Eb]; [|discriminate|]; injection H as <-.
    - exists 1, 1. rewrite !(qpow_compat _ _ _ Eb), !qpow_0. repeat split; lra.
    - assert (Hd : forall z, (qodd b = true \/ 0 <= z) -> exists u, qpow z b = Some u /\ (z = 0 -> u = 0)).
      { intros z Hz'. unfold qpow. split_pow z.
        - eexists; split; [reflexivity|]. lra.
        - apply Qgt_alt in Eb. rewrite Eb. exists 0; auto.
        - destruct Hz' as [->|Hz']; [|lra]. eexists; split; [reflexivity|]. lra. }
      destruct (Hd x) as (u & Hu & Hu0); [tauto|]. destruct (Hd y) as (v & Hv & Hv0); [tauto|].
      exists u, v. split; [exact Hu|split; [exact Hv|]].
      apply Rmult_integral in Hz. destruct Hz as [Hz|Hz]; [rewrite (Hu0 Hz)|rewrite (Hv0 Hz)]; lra. }
  assert (Hx : x <> 0) by (intros ->; apply Hz; ring).
  assert (Hy : y <> 0) by (intros ->; apply Hz; ring).
  destruct (Rlt_dec 0 x) as [Px|Px]; destruct (Rlt_dec 0 y) as [Py|Py].
  - unfold qpow in *. destruct (Rlt_dec 0 x); [|lra]. destruct (Rlt_dec 0 y); [|lra].
    pose proof (Rmult_lt_0_compat x y Px Py).
    destruct (Rlt_dec 0 (x * y)); [|lra]. injection H as <-.
    do 2 eexists. repeat split. rewrite <- Rpower_mult_distr by assumption. reflexivity.
  - destruct Hc as [Ob|[_ Hc]]; [|lra].
    assert (Hm : 0 < x * - y) by (apply Rmult_lt_0_compat; lra).
    unfold qpow in *. destruct (Rlt_dec 0 x); [|lra]. destruct (Rlt_dec 0 y); [lra|].
    destruct (Req_EM_T y 0); [lra|]. destruct (Rlt_dec 0 (x * y)); [lra|].
    destruct (Req_EM_T (x * y) 0); [lra|]. rewrite Ob in *. injection H as <-.
    do 2 eexists. repeat split.
    replace (- (x * y)) with (x * - y) by ring.
    rewrite <- (Rpower_mult_distr x (- y)) by lra. ring.
  - destruct Hc as [Ob|[Hc _]]; [|lra].
    assert (Hm : 0 < - x * y) by (apply Rmult_lt_0_compat; lra).
    unfold qpow in *. destruct (Rlt_dec 0 x); [lra|]. destruct (Rlt_dec 0 y); [|lra].
    destruct (Req_EM_T x 0); [lra|]. destruct (Rlt_dec 0 (x * y)); [lra|].
    destruct (Req_EM_T (x * y) 0); [lra|]. rewrite Ob in *. injection H as <-.
    do 2 eexists. repeat split.
    replace (- (x * y)) with (- x * y) by ring.
    rewrite <- (Rpower_mult_distr (- x) y) by lra. ring.
  - destruct Hc as [Ob|[Hc _]]; [|lra].
    assert (Hm : 0 < - x * - y) by (apply Rmult_lt_0_compat; lra).
    unfold qpow in *. destruct (Rlt_dec 0 x); [lra|]. destruct (Rlt_dec 0 y); [lra|].
    destruct (Req_EM_T x 0); [lra|]. destruct (Req_EM_T y 0); [lra|].
    destruct (Rlt_dec 0 (x * y)); [|nra]. rewrite Ob in *. injection H as <-.
    do 2 eexists. repeat split.
    replace (x * y) with (- x * - y) by ring.
    rewrite <- (Rpower_mult_distr (- x) (- y)) by lra.
    destruct (qnum_even b); ring.
Qed.

(** ** Integer powers, square and cube roots *)
Lemma qpow_Z_neg x z : x < 0 -> qpow x (z # 1) = Some (powerRZ x z).
Proof.
  intros Hx. unfold qpow. destruct (Rlt_dec 0 x); [lra|]. destruct (Req_EM_T x 0); [lra|].
  destruct (parity_rep (z # 1) z 1) as [-> ->]; [reflexivity|reflexivity|].
  rewrite Q2R_Z. rewrite <- powerRZ_Rpower by lra.
  f_equal.
  assert (Hp : forall n, powerRZ x (Z.of_nat n) = (if Z.even (Z.of_nat n) then 1 else -1) * powerRZ (- x) (Z.of_nat n)).
  { intros k. rewrite <- !pow_powerRZ. induction k as [|k IH]; [simpl; lra|].
    rewrite Nat2Z.inj_succ, Z.even_succ, <- Z.negb_even.
    cbn [pow]. rewrite IH. destruct (Z.even (Z.of_nat k)); cbn [negb]; ring. }
  destruct (Z.le_gt_cases 0 z) as [Hz|Hz].
  - rewrite <- (Z2Nat.id z Hz). symmetry. apply Hp.
  - assert (E : z = Z.opp (Z.of_nat (Z.to_nat (- z)))) by lia.
    rewrite E. rewrite Z.even_opp.
    assert (HN : forall y k, y <> 0 -> powerRZ y (- k) = / powerRZ y k).
    { intros y k Hy. destruct k; simpl; try lra; try reflexivity.
      rewrite Rinv_inv. reflexivity. }
    rewrite !HN by lra. rewrite (Hp (Z.to_nat (- z))).
    assert (Hnz : powerRZ (- x) (Z.of_nat (Z.to_nat (- z))) <> 0) by (apply powerRZ_NOR; lra).
    destruct (Z.even (Z.of_nat (Z.to_nat (- z)))); field; exact Hnz.
Qed.

Lemma qpow_pow x n : qpow x (Z.of_nat (S n) # 1) = Some (x ^ S n).
Proof.
  destruct (Rlt_dec 0 x) as [Hx|Hx].
  - unfold qpow. destruct (Rlt_dec 0 x); [|lra].
    rewrite Q2R_Z, <- INR_IZR_INZ, Rpower_pow by assumption. reflexivity.
  - destruct (Req_EM_T x 0) as [->|Hx0].
    + rewrite qpow_zero by reflexivity. f_equal. simpl; ring.
    + rewrite qpow_Z_neg by lra. rewrite <- pow_powerRZ. reflexivity.
Qed.

Lemma pypow_qpow x q w : pypow x (Q2R q) = Some w -> qpow x q = Some w.
Proof.
  unfold pypow. destruct (Rlt_dec 0 x) as [Hx|Hx].
  { intros H. unfold qpow. destruct (Rlt_dec 0 x); [exact H|lra]. }
  destruct (Req_EM_T (Q2R q) (IZR (Int_part (Q2R q)))) as [Hi|Hi].
  - set (z := Int_part (Q2R q)) in *.
    assert (E : (q == z # 1)%Q) by (apply eqR_Qeq; rewrite Q2R_Z; exact Hi).
    destruct (Req_EM_T x 0) as [Hx0|Hx0].
    + intros H. unfold qpow. destruct (Rlt_dec 0 x); [lra|]. destruct (Req_EM_T x 0); [|lra].
      destruct (Qcompare_spec q 0) as [E0|E0|E0].
      * rewrite (Qeq_eqR _ _ E0), Q2R_0 in H. destruct (Rlt_dec 0 0); [lra|].
        destruct (Req_EM_T 0 0); [exact H|lra].
      * apply Q2R_neg in E0. destruct (Rlt_dec 0 (Q2R q)); [lra|].
        destruct (Req_EM_T (Q2R q) 0); [lra|discriminate].
      * apply Q2R_pos in E0. destruct (Rlt_dec 0 (Q2R q)); [exact H|lra].
    + intros H. rewrite (qpow_compat _ _ _ E), qpow_Z_neg by lra. exact H.
  - destruct (Req_EM_T x 0) as [Hx0|Hx0]; [|discriminate].
    destruct (Rlt_dec 0 (Q2R q)) as [Hq|Hq]; [|discriminate].
    intros H; injection H as <-. subst x. apply qpow_zero.
    apply Rlt_Qlt. rewrite Q2R_0. exact Hq.
Qed.

Lemma Q2R_third : Q2R (1 # 3) = 1 / 3.
Proof. unfold Q2R; simpl; lra. Qed.
Lemma Q2R_half : Q2R (1 # 2) = / 2.
Proof. unfold Q2R; simpl; lra. Qed.

Lemma qpow_cbrt x : qpow x (1 # 3) = Some (Rcbrt x).
Proof.
  unfold qpow, Rcbrt. rewrite Q2R_third. split_pow x; try reflexivity.
  replace (qodd (1 # 3)) with true by reflexivity.
  replace (qnum_even (1 # 3)) with false by reflexivity. f_equal. lra.
Qed.

Lemma qpow_sqrt x : 0 <= x -> qpow x (1 # 2) = Some (sqrt x).
Proof.
  intros H. unfold qpow. rewrite Q2R_half. split_pow x.
  - rewrite Rpower_sqrt by assumption. reflexivity.
  - subst. simpl. rewrite sqrt_0. reflexivity.
  - lra.
Qed.
