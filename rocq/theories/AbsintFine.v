(** Soundness of the close bounds of Absint.v: pi, the elementary functions. *)
From Coq Require Import Reals ZArith NArith QArith Qreals Bool List Lra Lia Machin Ratan.
From Verif Require Import Bytes Syntax Semantics RPow Series Interval IntervalThm IntervalThm2 Absint AbsintThm.
Open Scope R_scope.

Section Precision.
Context {prc : setting}.

Lemma or_top_ok i x : (forall j, i = Some j -> inside j x) -> inside (or_top i) x.
Proof. intros H. destruct i as [j|]; [apply H; reflexivity|apply inside_top]. Qed.
Lemma imul_inv_ok i j x y : inside i x -> inside j y -> inside (imul_o i (iinv j)) (x / y).
Proof.
  intros Hx Hy. unfold imul_o. destruct (iinv j) as [k|] eqn:E; [|apply inside_top].
  apply imul_ok; [exact Hx|exact (proj2 (iinv_ok _ _ _ E Hy))].
Qed.
Lemma D2R_half : D2R (D 1 (-1)) = / 2.
Proof.
  unfold D2R. assert (P : p2 (-1) * 2 = 1). { pose proof (p2_opp 1) as H. rewrite (p2_Z 1) in H by lia. exact H. }
  lra.
Qed.
Lemma one_in : inside (const one) 1.
Proof. rewrite <- D2R_one. apply const_ok. Qed.

(** The exponential and the logarithm. *)
Lemma between i j a b x : inside i a -> inside j b -> (a <= x <= b \/ b <= x <= a) -> inside (join i j) x.
Proof.
  intros Ha Hb H. pose proof (join_l i j a Ha) as [A1 A2]. pose proof (join_r i j b Hb) as [B1 B2].
  split.
  - destruct (lo (join i j)) as [|u s]; [exact Logic.I|]. destruct s; cbn [in_lo] in *; lra.
  - destruct (hi (join i j)) as [|u s]; [exact Logic.I|]. destruct s; cbn [in_hi] in *; lra.
Qed.
Lemma zero_slope (f f' : R -> R) x : 0 < x -> (forall c, 0 < c -> derivable_pt_lim f c (f' c)) -> (forall c, 0 < c -> 0 <= f' c) ->
  f 1 = 0 -> (1 <= x -> 0 <= f x) /\ (x <= 1 -> f x <= 0).
Proof.
  intros Hx D P Z. split; intros [L|E]; try (subst x; rewrite Z; lra); try (rewrite <- E, Z; lra); try (rewrite E, Z; lra).
  - destruct (MVT_cor2 f f' 1 x L) as (c & E & C); [intros c C; apply D; lra|]. specialize (P c ltac:(lra)). nra.
  - destruct (MVT_cor2 f f' x 1 L) as (c & E & C); [intros c C; apply D; lra|]. specialize (P c ltac:(lra)). nra.
Qed.
Lemma ln_between r : 0 < r ->
  2 * (r - 1) / (r + 1) <= ln r <= / 2 * (r - / r) \/ / 2 * (r - / r) <= ln r <= 2 * (r - 1) / (r + 1).
Proof.
  intros Hr.
  assert (A : (1 <= r -> 0 <= / 2 * (r - / r) - ln r) /\ (r <= 1 -> / 2 * (r - / r) - ln r <= 0)).
  { apply (zero_slope (fun x => / 2 * (x - / x) - ln x) (fun x => / 2 * (1 - (0 * x - 1 * 1) / Rsqr x) - / x) r Hr).
    - intros c Hc. apply derivable_pt_lim_minus; [|apply derivable_pt_lim_ln, Hc].
      apply derivable_pt_lim_scal, derivable_pt_lim_minus; [apply derivable_pt_lim_id|].
      apply (derivable_pt_lim_ext (fun x => 1 / x)); [intros z; unfold Rdiv; ring|].
      apply (derivable_pt_lim_div (fun _ => 1) id c 0 1); [apply derivable_pt_lim_const|apply derivable_pt_lim_id|unfold id; lra].
    - intros c Hc. replace (/ 2 * (1 - (0 * c - 1 * 1) / c²) - / c) with (/ 2 * ((1 - / c) * (1 - / c))) by (unfold Rsqr; field; lra).
      apply Rmult_le_pos; [lra|apply Rle_0_sqr].
    - rewrite ln_1, Rinv_1. ring. }
  assert (B : (1 <= r -> 0 <= ln r - 2 * (r - 1) / (r + 1)) /\ (r <= 1 -> ln r - 2 * (r - 1) / (r + 1) <= 0)).
  { apply (zero_slope (fun x => ln x - 2 * (x - 1) / (x + 1)) (fun x => / x - (2 * (x + 1) - 1 * (2 * (x - 1))) / Rsqr (x + 1)) r Hr).
    - intros c Hc. apply derivable_pt_lim_minus; [apply derivable_pt_lim_ln, Hc|].
      apply (derivable_pt_lim_div (fun x => 2 * (x - 1)) (fun x => x + 1) c 2 1); [| |lra].
      + assert (E : derivable_pt_lim (fun x => 2 * (x - 1)) c (2 * (1 - 0))); [|replace (2 * (1 - 0)) with 2 in E by ring; exact E].
        apply (derivable_pt_lim_scal (fun x => x - 1) 2 c (1 - 0)), (derivable_pt_lim_minus id (fun _ => 1) c 1 0); [apply derivable_pt_lim_id|apply derivable_pt_lim_const].
      + assert (E : derivable_pt_lim (fun x => x + 1) c (1 + 0)); [|replace (1 + 0) with 1 in E by ring; exact E].
        apply (derivable_pt_lim_plus id (fun _ => 1) c 1 0); [apply derivable_pt_lim_id|apply derivable_pt_lim_const].
    - intros c Hc. replace (/ c - (2 * (c + 1) - 1 * (2 * (c - 1))) / (c + 1)²) with ((c - 1) * (c - 1) * / (c * ((c + 1) * (c + 1)))) by (unfold Rsqr; field; lra).
      apply Rmult_le_pos; [apply Rle_0_sqr|]. left. apply Rinv_0_lt_compat. apply Rmult_lt_0_compat; nra.
    - rewrite ln_1. field. }
  destruct (Rle_or_lt 1 r) as [L|L]; [left|right]; destruct A as [A1 A2], B as [B1 B2].
  - specialize (A1 L). specialize (B1 L). lra.
  - specialize (A2 ltac:(lra)). specialize (B2 ltac:(lra)). lra.
Qed.
Lemma exp_between y : -2 < y < 2 ->
  y + sqrt (1 + y * y) <= exp y <= (2 + y) / (2 - y) \/ (2 + y) / (2 - y) <= exp y <= y + sqrt (1 + y * y).
Proof.
  intros Hy. pose proof (exp_pos y) as Hr. pose proof (ln_between (exp y) Hr) as H. rewrite ln_exp in H. set (r := exp y) in *.
  set (w := sqrt (1 + y * y)). assert (W : w * w = 1 + y * y) by (apply sqrt_sqrt; nra). assert (W0 : 0 < w) by (apply sqrt_lt_R0; nra).
  assert (Wy : 0 < w + y) by nra.
  assert (Q : / 2 * (r - / r) * (2 * r) = r * r - 1) by (field; lra).
  assert (P : 2 * (r - 1) / (r + 1) * (r + 1) = 2 * (r - 1)) by (field; lra).
  assert (D : forall z, z = (2 + y) / (2 - y) -> z * (2 - y) = 2 + y) by (intros z ->; field; lra).
  set (z := (2 + y) / (2 - y)) in *. specialize (D z eq_refl).
  destruct H as [[H1 H2]|[H1 H2]]; [left|right].
  - assert (2 * (r - 1) <= y * (r + 1)) by nra. assert (2 * y * r <= r * r - 1) by nra. split; [|nra].
    destruct (Rle_or_lt (y + w) r) as [L|L]; [exact L|]. assert (0 < (w + y - r) * (r + (w - y))) by (apply Rmult_lt_0_compat; nra). nra.
  - assert (y * (r + 1) <= 2 * (r - 1)) by nra. assert (r * r - 1 <= 2 * y * r) by nra. split; [nra|].
    destruct (Rle_or_lt r (y + w)) as [L|L]; [exact L|]. assert (0 < (r - (w + y)) * (r + (w - y))) by (apply Rmult_lt_0_compat; nra). nra.
Qed.
Lemma squares_ok k : forall i x, inside i x -> inside (squares k i) (sq k x).
Proof. induction k as [|k IH]; intros i x H; cbn [squares sq]; [exact H|]. apply IH, imul_ok; exact H. Qed.
Lemma roots_ok k : forall i x, 0 < x -> inside i x -> exists r, 0 < r /\ inside (roots k i) r /\ ln x = 2 ^ k * ln r.
Proof.
  induction k as [|k IH]; intros i x P H; cbn [roots].
  - exists x. split; [exact P|]. split; [exact H|]. cbn. ring.
  - destruct (IH (or_top (isqrt i)) (sqrt x)) as (r & Hr & Ir & E).
    + apply sqrt_lt_R0, P.
    + apply or_top_ok. intros j Ej. exact (proj2 (isqrt_ok _ _ _ Ej H)).
    + exists r. split; [exact Hr|]. split; [exact Ir|]. rewrite (ln_sqrt x P), E. cbn. ring.
Qed.
Lemma two_in : inside (const (D 2 0)) 2.
Proof. replace 2 with (D2R (D 2 0)) by apply D2R_int. apply const_ok. Qed.
Lemma D2R_p2 k : D2R (D 1 k) = p2 k.
Proof. unfold D2R. ring. Qed.
Lemma lo_under (b : bnd) x y : in_lo b x -> x <= y -> in_lo b y.
Proof. destruct b as [|a []]; cbn [in_lo]; [trivial|lra|lra]. Qed.
Lemma hi_over (b : bnd) x y : in_hi b x -> y <= x -> in_hi b y.
Proof. destruct b as [|a []]; cbn [in_hi]; [trivial|lra|lra]. Qed.
Lemma div_in i n x : (0 < n)%nat -> inside i x -> inside (idiv_pos i (Pos.of_nat n)) (x / INR n).
Proof.
  intros Hn H. rewrite INR_IZR_INZ. replace (Z.of_nat n) with (Z.pos (Pos.of_nat n)) by lia. apply idiv_pos_ok, H.
Qed.
Lemma zero_in : inside (const zero) 0.
Proof. rewrite <- D2R_zero. apply const_ok. Qed.
Lemma exp_terms_ok n y x : inside y x -> inside (fst (exp_terms n y)) (exp_sum n x) /\ inside (snd (exp_terms n y)) (x ^ n / INR (Factorial.fact n)).
Proof.
  intros H. induction n as [|n IH].
  - cbn [exp_terms fst snd exp_sum]. split; [apply zero_in|]. replace (x ^ 0 / INR (Factorial.fact 0)) with 1 by (cbn; field). apply one_in.
  - cbn [exp_terms exp_sum]. destruct (exp_terms n y) as [s t]. cbn [fst snd] in *. destruct IH as [A B]. split; [apply iadd_ok; assumption|].
    replace (x ^ S n / INR (Factorial.fact (S n))) with ((x * (x ^ n / INR (Factorial.fact n))) / INR (S n)).
    + apply div_in; [lia|apply imul_ok; assumption].
    + rewrite fact_simpl, mult_INR. cbn [pow]. field. split; [apply INR_fact_neq_0|apply not_0_INR; lia].
Qed.
Lemma three_in : inside (const (D 3 0)) 3.
Proof. replace 3 with (D2R (D 3 0)) by apply D2R_int. apply const_ok. Qed.
Lemma exp_series_ok y x : 0 <= x <= 1 -> inside y x -> inside (exp_series y) (exp x).
Proof.
  intros Hx H. unfold exp_series. pose proof (exp_terms_ok terms y x H) as [A B]. destruct (exp_terms terms y) as [s t]. cbn [fst snd] in *.
  pose proof (exp_sum_ok terms x Hx) as [L U]. split; cbn [lo hi].
  - exact (lo_under _ _ _ (proj1 A) L).
  - refine (hi_over _ _ _ _ U). exact (proj2 (iadd_ok _ _ _ _ A (imul_ok _ _ _ _ three_in B))).
Qed.
Definition sgn_of (alt : bool) : R := if alt then -1 else 1.
Lemma odd_terms_ok alt n z w x : inside z x -> inside w (x * x) ->
  inside (fst (odd_terms alt n z w)) (odd_sum (sgn_of alt) n x) /\ inside (snd (odd_terms alt n z w)) (x ^ (2 * n + 1)).
Proof.
  intros H W. induction n as [|n IH].
  - cbn [odd_terms fst snd odd_sum]. split; [apply zero_in|]. replace (x ^ (2 * 0 + 1)) with x by (cbn; ring). exact H.
  - cbn [odd_terms odd_sum]. destruct (odd_terms alt n z w) as [s p]. cbn [fst snd] in *. destruct IH as [A B]. split.
    + apply iadd_ok; [exact A|].
      assert (V : inside (idiv_pos p (Pos.of_nat (2 * n + 1))) (x ^ (2 * n + 1) / INR (2 * n + 1))) by (apply div_in; [lia|exact B]).
      destruct alt; cbn [andb sgn_of].
      * destruct (Nat.odd n) eqn:O.
        -- apply Nat.odd_spec in O. destruct O as [k ->]. replace ((-1) ^ (2 * k + 1)) with (-1) by (rewrite Nat.add_1_r, pow_1_odd; reflexivity).
           replace (-1 * _) with (- (x ^ (2 * (2 * k + 1) + 1) / INR (2 * (2 * k + 1) + 1))) by ring. apply ineg_ok, V.
        -- assert (Ev : Nat.even n = true) by (rewrite <- Nat.negb_odd, O; reflexivity). apply Nat.even_spec in Ev. destruct Ev as [k ->].
           rewrite pow_1_even, Rmult_1_l. exact V.
      * rewrite pow1, Rmult_1_l. exact V.
    + replace (x ^ (2 * S n + 1)) with (x * x * x ^ (2 * n + 1)) by (replace (2 * S n + 1)%nat with (2 + (2 * n + 1))%nat by lia; rewrite (pow_add x 2); cbn [pow]; ring).
      apply imul_ok; assumption.
Qed.
Lemma odd_series_ok alt c z x v : inside z x ->
  Rabs (v - odd_sum (sgn_of alt) terms x) <= IZR c * (x ^ (2 * terms + 1) / INR (2 * terms + 1)) -> inside (odd_series alt c z) v.
Proof.
  intros H B. unfold odd_series. pose proof (odd_terms_ok alt terms z (imul z z) x H (imul_ok _ _ _ _ H H)) as [A P].
  destruct (odd_terms alt terms z (imul z z)) as [s p]. cbn [fst snd] in *. cbv zeta.
  assert (V : inside (imul (const (D c 0)) (idiv_pos p (Pos.of_nat (2 * terms + 1)))) (IZR c * (x ^ (2 * terms + 1) / INR (2 * terms + 1)))).
  { apply imul_ok; [rewrite <- (D2R_int c); apply const_ok|]. apply div_in; [lia|exact P]. }
  set (e := imul (const (D c 0)) _) in *. clearbody e. set (u := IZR c * _) in *. clearbody u.
  assert (Lv : - u <= v - odd_sum (sgn_of alt) terms x <= u) by (split; [pose proof (Rle_abs (- (v - odd_sum (sgn_of alt) terms x))) as G; rewrite Rabs_Ropp in G; lra|pose proof (Rle_abs (v - odd_sum (sgn_of alt) terms x)); lra]).
  split; cbn [lo hi].
  - refine (lo_under _ _ _ (proj1 (isub_ok _ _ _ _ A V)) _). lra.
  - refine (hi_over _ _ _ (proj2 (iadd_ok _ _ _ _ A V)) _). lra.
Qed.
Lemma below_ok i b x : bnd_le (hi i) (Bd b false) = true -> inside i x -> x <= D2R b.
Proof. intros C H. apply (bnd_le_ok _ _ _ _ C (proj2 H)). cbn [in_lo]. lra. Qed.
Lemma fexp_ok i x : inside i x -> inside (fexp i) (exp x).
Proof.
  intros H. unfold fexp.
  set (y := x * p2 (- Z.of_nat steps)). rewrite (exp_steps x). fold y.
  assert (Pos : inside positive_itv (sq steps (exp y))) by (unfold y; rewrite <- exp_steps; apply positive_itv_ok, exp_pos).
  assert (Y : inside (imul (const (D 1 (- Z.of_nat steps))) i) y).
  { unfold y. rewrite Rmult_comm, <- D2R_p2. apply imul_ok; [apply const_ok|exact H]. }
  set (j := imul _ i) in *. clearbody j. cbv zeta.
  destruct (lo_nonneg j && bnd_le (hi j) (Bd one false)) eqn:S1.
  { apply andb_prop in S1. destruct S1 as [N B]. apply meet_ok; [exact Pos|]. apply squares_ok, exp_series_ok; [|exact Y].
    pose proof (lo_nonneg_ok _ _ N Y). pose proof (below_ok _ _ _ B Y) as U. rewrite D2R_one in U. lra. }
  destruct (lo_nonneg (ineg j) && bnd_le (hi (ineg j)) (Bd one false)) eqn:S2.
  { apply andb_prop in S2. destruct S2 as [N B]. apply meet_ok; [exact Pos|]. pose proof (ineg_ok _ _ Y) as Y'.
    assert (E : inside (squares steps (exp_series (ineg j))) (sq steps (exp (- y)))).
    { apply squares_ok, exp_series_ok; [|exact Y']. pose proof (lo_nonneg_ok _ _ N Y'). pose proof (below_ok _ _ _ B Y') as U. rewrite D2R_one in U. lra. }
    apply or_top_ok. intros k Ek. destruct (iinv_ok _ _ _ Ek E) as [_ K].
    replace (sq steps (exp y)) with (/ sq steps (exp (- y))); [exact K|]. rewrite !sq_exp.
    replace (- y * 2 ^ steps) with (- (y * 2 ^ steps)) by ring. rewrite exp_Ropp, Rinv_inv. reflexivity. }
  destruct (bnd_lt _ _ && bnd_lt _ _) eqn:C; [|exact Pos]. apply meet_ok; [exact Pos|]. apply squares_ok.
  apply andb_prop in C. destruct C as [C1 C2].
  assert (U : y < 2) by (apply (bnd_lt_ok _ _ _ _ C1 (proj2 Y)); cbn [in_lo]; rewrite D2R_int; lra).
  assert (L : -2 < y) by (apply (bnd_lt_ok _ _ _ _ C2); [cbn [in_hi]; rewrite D2R_int; lra|exact (proj1 Y)]).
  assert (A : inside (iadd j (or_top (isqrt (iadd (const one) (imul j j))))) (y + sqrt (1 + y * y))).
  { apply iadd_ok; [exact Y|]. apply or_top_ok. intros k Ek. refine (proj2 (isqrt_ok _ _ _ Ek _)).
    apply iadd_ok; [apply one_in|apply imul_ok; exact Y]. }
  destruct (iinv (isub (const (D 2 0)) j)) as [k|] eqn:Ek.
  2:{ cbn [imul_o]. pose proof (join_r (iadd j (or_top (isqrt (iadd (const one) (imul j j))))) top) as T. apply T, inside_top. }
  cbn [imul_o]. destruct (iinv_ok _ _ _ Ek (isub_ok _ _ _ _ two_in Y)) as [_ Ik].
  assert (B : inside (imul (iadd (const (D 2 0)) j) k) ((2 + y) / (2 - y))) by (apply imul_ok; [apply iadd_ok; [apply two_in|exact Y]|exact Ik]).
  exact (between _ _ _ _ _ A B (exp_between y (conj L U))).
Qed.
Lemma ln_ratio r : 0 < r -> let z := (r - 1) / (r + 1) in -1 < z < 1 /\ ln r = ln (1 + z) - ln (1 - z).
Proof.
  intros Hr z. assert (A : 1 + z = 2 * r * / (r + 1)) by (unfold z; field; lra). assert (B : 1 - z = 2 * / (r + 1)) by (unfold z; field; lra).
  assert (I0 : 0 < / (r + 1)) by (apply Rinv_0_lt_compat; lra).
  split; [nra|]. rewrite A, B. replace (2 * r * / (r + 1)) with (r * (2 * / (r + 1))) by ring.
  rewrite ln_mult by nra. ring.
Qed.
Lemma ln_series_ok z r : 0 < r -> inside z ((r - 1) / (r + 1)) -> lo_nonneg z = true -> bnd_le (hi z) (Bd (D 1 (-1)) false) = true ->
  inside (imul (const (D 1 (Z.of_nat (S steps)))) (odd_series false 2 z)) (2 ^ steps * ln r).
Proof.
  intros Hr Z N B. destruct (ln_ratio r Hr) as [_ E]. cbv zeta in E. set (x := (r - 1) / (r + 1)) in *.
  replace (2 ^ steps * ln r) with (D2R (D 1 (Z.of_nat (S steps))) * ((ln (1 + x) - ln (1 - x)) / 2)).
  - apply imul_ok; [apply const_ok|]. apply (odd_series_ok false 2 z x); [exact Z|]. cbn [sgn_of]. apply ln_sum_ok.
    pose proof (lo_nonneg_ok _ _ N Z). pose proof (below_ok _ _ _ B Z) as U. rewrite D2R_half in U. lra.
  - rewrite D2R_p2, p2_nat, E. cbn [pow]. field.
Qed.
Lemma fln_ok i x : 0 < x -> inside i x -> inside (fln i) (ln x).
Proof.
  intros P H. unfold fln. destruct (roots_ok steps i x P H) as (r & Hr & Ir & ->). set (j := roots steps i) in *. clearbody j. cbv zeta.
  assert (Z : inside (imul_o (isub j (const one)) (iinv (iadd j (const one)))) ((r - 1) / (r + 1))).
  { apply imul_inv_ok; [apply isub_ok; [exact Ir|apply one_in]|apply iadd_ok; [exact Ir|apply one_in]]. }
  set (z := imul_o _ _) in *. clearbody z.
  destruct (lo_nonneg z && bnd_le (hi z) (Bd (D 1 (-1)) false)) eqn:S1.
  { apply andb_prop in S1. exact (ln_series_ok z r Hr Z (proj1 S1) (proj2 S1)). }
  destruct (lo_nonneg (ineg z) && bnd_le (hi (ineg z)) (Bd (D 1 (-1)) false)) eqn:S2.
  { apply andb_prop in S2. replace (2 ^ steps * ln r) with (- (2 ^ steps * ln (/ r))) by (rewrite ln_Rinv by exact Hr; ring).
    apply ineg_ok. assert (Hi : 0 < / r) by (apply Rinv_0_lt_compat, Hr). apply (ln_series_ok (ineg z) (/ r) Hi); [|exact (proj1 S2)|exact (proj2 S2)].
    replace ((/ r - 1) / (/ r + 1)) with (- ((r - 1) / (r + 1))) by (field; lra). apply ineg_ok, Z. }
  rewrite <- p2_nat, <- D2R_p2. apply imul_ok; [apply const_ok|].
  apply (between _ _ (2 * (r - 1) / (r + 1)) (/ 2 * (r - / r))); [| |exact (ln_between r Hr)].
  - replace (2 * (r - 1) / (r + 1)) with (2 * ((r - 1) / (r + 1))) by (field; lra). apply imul_ok; [apply two_in|exact Z].
  - rewrite <- D2R_half. apply imul_ok; [apply const_ok|]. destruct (iinv j) as [k|] eqn:E; [|apply inside_top].
    apply isub_ok; [exact Ir|exact (proj2 (iinv_ok _ _ _ E Ir))].
Qed.
Lemma ipower_ok i j x y : 0 < x -> inside i x -> inside j y -> inside (ipower i j) (Rpower x y).
Proof. intros P Hx Hy. unfold ipower, Rpower. apply fexp_ok, imul_ok; [exact Hy|apply fln_ok; assumption]. Qed.
(** The arc tangent. *)
Lemma atan_half x : 0 <= x -> atan x = 2 * atan (x / (1 + sqrt (1 + x * x))).
Proof.
  intros Hx. set (t := atan x). assert (B : - (PI / 2) < t < PI / 2) by (pose proof (atan_bound x); unfold t; lra).
  assert (P : 0 < PI) by apply PI_RGT_0.
  assert (S1 : 0 < sqrt (1 + x * x)) by (apply sqrt_lt_R0; nra).
  assert (C : cos t = / sqrt (1 + x * x)).
  { unfold t. rewrite cos_atan. unfold Rsqr. field. lra. }
  assert (N : sin t = x / sqrt (1 + x * x)).
  { unfold t. rewrite sin_atan. unfold Rsqr. reflexivity. }
  assert (E : tan (t / 2) = x / (1 + sqrt (1 + x * x))).
  { assert (Cp : 0 < cos (t / 2)) by (apply cos_gt_0; lra).
    assert (D : cos t = 2 * (cos (t / 2) * cos (t / 2)) - 1).
    { replace t with (2 * (t / 2)) at 1 by field. rewrite cos_2a_cos. ring. }
    assert (D' : sin t = 2 * sin (t / 2) * cos (t / 2)).
    { replace t with (2 * (t / 2)) at 1 by field. apply sin_2a. }
    assert (G : sin t / (1 + cos t) = tan (t / 2)).
    { rewrite D, D'. unfold tan. field. split; [lra|]. nra. }
    rewrite <- G, C, N. field. split; [nra|lra]. }
  rewrite <- E, atan_tan by lra. lra.
Qed.
Lemma half_atan_ok i x : inside i x -> inside (half_atan i) (x / (1 + sqrt (1 + x * x))).
Proof.
  intros H. unfold half_atan. destruct (isqrt _) as [s|] eqn:E; [|apply inside_top].
  apply imul_inv_ok; [exact H|]. apply iadd_ok; [apply one_in|].
  refine (proj2 (isqrt_ok _ _ _ E _)). apply iadd_ok; [apply one_in|apply imul_ok; exact H].
Qed.
Lemma iatan_ok k : forall i x, 0 <= x -> inside i x -> inside (iatan k i) (atan x).
Proof.
  induction k as [|k IH]; intros i x Hx H; cbn [iatan].
  - apply (odd_series_ok true 1 i x); [exact H|]. exact (atan_sum_ok terms x Hx).
  - rewrite (atan_half x Hx). apply imul_ok.
    + replace 2 with (D2R (D 2 0)) by apply D2R_int. apply const_ok.
    + apply IH; [|apply half_atan_ok, H]. assert (0 <= sqrt (1 + x * x)) by apply sqrt_pos.
      apply Rmult_le_pos; [exact Hx|]. left. apply Rinv_0_lt_compat. lra.
Qed.

Lemma fine1_ok I f i x v : ops_ok I -> fn1_sem I f x = Some v -> inside i x -> inside (fine1 f i) v.
Proof.
  intros HI E H. destruct f; cbn [fine1 fn1_sem] in *; try apply inside_top.
  - injection E as <-. destruct (lo_nonneg i) eqn:A; [apply iatan_ok; [exact (lo_nonneg_ok _ _ A H)|exact H]|].
    destruct (lo_nonneg (ineg i)) eqn:B; [|apply inside_top].
    pose proof (ineg_ok _ _ H) as N. pose proof (lo_nonneg_ok _ _ B N) as P.
    replace (atan x) with (- atan (- x)) by (rewrite atan_opp; ring). apply ineg_ok, iatan_ok; assumption.
  - injection E as <-. destruct (isqrt _) as [s|] eqn:E; [|apply inside_top]. cbv zeta. destruct (lo_pos _) eqn:P; [|apply inside_top].
    assert (J : inside (iadd i s) (x + sqrt (x ^ 2 + 1))).
    { apply iadd_ok; [exact H|]. refine (proj2 (isqrt_ok _ _ _ E _)). apply iadd_ok; [|apply one_in].
      replace (x ^ 2) with (x * x) by ring. apply imul_ok; exact H. }
    unfold arcsinh. apply fln_ok; [exact (lo_pos_ok _ _ P J)|exact J].
  - destruct (Rlt_dec (Rabs x) 1); [|discriminate]. injection E as <-. destruct (iinv _) as [j|] eqn:E; [|apply inside_top].
    cbv zeta. destruct (lo_pos _) eqn:P; [|apply inside_top]. unfold Ratanh.
    replace (ln ((1 + x) / (1 - x)) / 2) with (D2R (D 1 (-1)) * ln ((1 + x) / (1 - x))) by (rewrite D2R_half; field; intros Z; apply Rabs_def2 in r; lra).
    apply imul_ok; [apply const_ok|].
    assert (J : inside (imul (iadd (const one) i) j) ((1 + x) / (1 - x))).
    { apply imul_ok; [apply iadd_ok; [apply one_in|exact H]|]. refine (proj2 (iinv_ok _ _ _ E _)). apply isub_ok; [apply one_in|exact H]. }
    apply fln_ok; [exact (lo_pos_ok _ _ P J)|exact J].
  - injection E as <-. unfold tanh, sinh, cosh. pose proof (fexp_ok _ _ H) as A. pose proof (fexp_ok _ _ (ineg_ok _ _ H)) as B.
    assert (0 < exp x) by apply exp_pos. assert (0 < exp (- x)) by apply exp_pos.
    replace ((exp x - exp (- x)) / 2 / ((exp x + exp (- x)) / 2)) with ((exp x - exp (- x)) / (exp x + exp (- x))) by (field; lra).
    apply imul_inv_ok; [apply isub_ok; assumption|apply iadd_ok; assumption].
  - injection E as <-. unfold cosh.
    replace ((exp x + exp (- x)) / 2) with (D2R (D 1 (-1)) * (exp x + exp (- x))) by (rewrite D2R_half; field). apply imul_ok; [apply const_ok|].
    apply iadd_ok; apply fexp_ok; [exact H|apply ineg_ok, H].
  - destruct (beqb name "lambertw") eqn:E1.
    { apply beqb_eq in E1. subst name. destruct (lo_nonneg i) eqn:P; [|apply inside_top].
      destruct (lambertw_ok _ HI x (lo_nonneg_ok _ _ P H)) as (w & Ew & B). rewrite E in Ew. injection Ew as <-.
      split; [exact Logic.I|]. exact (hi_over _ _ _ (proj2 H) (proj2 B)). }
    destruct (beqb name "xc_E1_scaled") eqn:E2.
    { apply beqb_eq in E2. subst name. destruct (lo_pos i) eqn:P; [|apply inside_top].
      destruct (e1_ok _ HI x (lo_pos_ok _ _ P H)) as (w & Ew & B). rewrite E in Ew. injection Ew as <-.
      split; cbn [lo hi].
      - refine (lo_under _ _ _ _ (proj1 B)). apply imul_inv_ok; [apply one_in|apply iadd_ok; [exact H|apply one_in]].
      - refine (hi_over _ _ _ _ (proj2 B)).
        apply imul_inv_ok; [apply iadd_ok; [exact H|apply one_in]|apply imul_ok; [exact H|apply iadd_ok; [exact H|apply two_in]]]. }
    destruct (beqb name "i0") eqn:E3; [|apply inside_top].
    apply beqb_eq in E3. subst name. destruct (i0_ok _ HI x) as (w & Ew & B). rewrite E in Ew. injection Ew as <-.
    split; [exact Logic.I|]. refine (hi_over _ _ _ _ (proj2 B)). apply fexp_ok, iabs_ok, H.
Qed.

(** Pi from pi / 4 = 2 atan (1/3) + atan (1/7): partial sums of the alternating series. *)
Fixpoint pi_state (n : nat) : itv * itv * itv := (* the sum, (1/3)^(2n+1), (1/7)^(2n+1) *)
  match n with
  | O => (of_Q (17 # 21), of_Q (1 # 3), of_Q (1 # 7))
  | S m =>
      let '(s, a, b) := pi_state m in
      let a := imul (of_Q (1 # 9)) a in let b := imul (of_Q (1 # 49)) b in
      let v := imul (of_Q (1 # Pos.of_nat (2 * n + 1))) (iadd (iadd a a) b) in
      (iadd s (if Nat.even n then v else ineg v), a, b)
  end.
Definition pi_sum (n : nat) : itv := fst (fst (pi_state n)).
Lemma pi_state_ok n : inside (pi_sum n) (sum_f_R0 (tg_alt PI_2_3_7_tg) n) /\
  inside (snd (fst (pi_state n))) ((/ 3) ^ (2 * n + 1)) /\ inside (snd (pi_state n)) ((/ 7) ^ (2 * n + 1)).
Proof.
  assert (E : forall n, (-1) ^ n = if Nat.even n then 1 else -1).
  { clear. induction n as [|n IH]; [reflexivity|]. rewrite Nat.even_succ, <- Nat.negb_even. cbn [pow]. rewrite IH. destruct (Nat.even n); cbn; ring. }
  assert (Q1 : forall p, Q2R (1 # p) = / IZR (Zpos p)) by (intros p; unfold Q2R; cbn [Qnum Qden]; ring).
  unfold pi_sum. induction n as [|n IH].
  - cbn [pi_state fst snd sum_f_R0]. split; [|split].
    + replace (tg_alt PI_2_3_7_tg 0) with (Q2R (17 # 21)); [apply of_Q_ok|].
      unfold tg_alt, PI_2_3_7_tg, Ratan_seq, Q2R. cbn [Qnum Qden Nat.mul Nat.add pow INR]. field.
    + replace ((/ 3) ^ (2 * 0 + 1)) with (Q2R (1 # 3)); [apply of_Q_ok|]. rewrite Q1. cbn. ring.
    + replace ((/ 7) ^ (2 * 0 + 1)) with (Q2R (1 # 7)); [apply of_Q_ok|]. rewrite Q1. cbn. ring.
  - cbn [pi_state sum_f_R0]. destruct (pi_state n) as [[s a] b]. cbn [fst snd] in *. destruct IH as (Hs & Ha & Hb).
    assert (Ha' : inside (imul (of_Q (1 # 9)) a) ((/ 3) ^ (2 * S n + 1))).
    { replace ((/ 3) ^ (2 * S n + 1)) with (Q2R (1 # 9) * (/ 3) ^ (2 * n + 1)); [apply imul_ok; [apply of_Q_ok|exact Ha]|].
      replace (2 * S n + 1)%nat with (2 + (2 * n + 1))%nat by lia. rewrite (pow_add (/ 3) 2), Q1. generalize ((/ 3) ^ (2 * n + 1)). intros w. cbn [pow]. field. }
    assert (Hb' : inside (imul (of_Q (1 # 49)) b) ((/ 7) ^ (2 * S n + 1))).
    { replace ((/ 7) ^ (2 * S n + 1)) with (Q2R (1 # 49) * (/ 7) ^ (2 * n + 1)); [apply imul_ok; [apply of_Q_ok|exact Hb]|].
      replace (2 * S n + 1)%nat with (2 + (2 * n + 1))%nat by lia. rewrite (pow_add (/ 7) 2), Q1. generalize ((/ 7) ^ (2 * n + 1)). intros w. cbn [pow]. field. }
    set (p := Pos.of_nat (2 * S n + 1)). assert (Ep : Pos.to_nat p = (2 * S n + 1)%nat) by (unfold p; apply Nat2Pos.id; lia).
    assert (Hv : inside (imul (of_Q (1 # p)) (iadd (iadd (imul (of_Q (1 # 9)) a) (imul (of_Q (1 # 9)) a)) (imul (of_Q (1 # 49)) b))) (PI_2_3_7_tg (S n))).
    { replace (PI_2_3_7_tg (S n)) with (Q2R (1 # p) * ((/ 3) ^ (2 * S n + 1) + (/ 3) ^ (2 * S n + 1) + (/ 7) ^ (2 * S n + 1))).
      - apply imul_ok; [apply of_Q_ok|]. apply iadd_ok; [apply iadd_ok; exact Ha'|exact Hb'].
      - unfold PI_2_3_7_tg, Ratan_seq. rewrite Q1. replace (IZR (Zpos p)) with (INR (2 * S n + 1)) by (rewrite <- Ep, INR_IPR; reflexivity).
        assert (INR (2 * S n + 1) <> 0) by (apply not_0_INR; lia). field. assumption. }
    split; [|split; assumption]. apply iadd_ok; [exact Hs|]. unfold tg_alt. rewrite E. destruct (Nat.even (S n)).
    + rewrite Rmult_1_l. exact Hv.
    + replace (-1 * PI_2_3_7_tg (S n)) with (- PI_2_3_7_tg (S n)) by ring. apply ineg_ok, Hv.
Qed.
Lemma pi_sum_ok n : inside (pi_sum n) (sum_f_R0 (tg_alt PI_2_3_7_tg) n).
Proof. apply pi_state_ok. Qed.
(** Bounds of pi from [n] terms. *)
Definition pi_bounds (n : nat) : itv := imul (const (D 4 0)) (Itv (lo (pi_sum (S (2 * n)))) (hi (pi_sum (2 * n)))).
Lemma pi_bounds_ok n : inside (pi_bounds n) PI.
Proof.
  unfold pi_bounds. replace PI with (D2R (D 4 0) * (PI / 4)) by (rewrite D2R_int; field). apply imul_ok; [apply const_ok|].
  destruct (PI_2_3_7_ineq n) as [L U]. split; cbn [lo hi].
  - destruct (pi_sum_ok (S (2 * n))) as [G _]. destruct (lo _) as [|a s]; cbn [in_lo] in *; [exact Logic.I|]. destruct s; lra.
  - destruct (pi_sum_ok (2 * n)) as [_ G]. destruct (hi _) as [|a s]; cbn [in_hi] in *; [exact Logic.I|]. destruct s; lra.
Qed.
End Precision.
