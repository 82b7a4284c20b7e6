(** Soundness of roots, rational powers, exponential, logarithm and comparisons. *)
From Coq Require Import Reals ZArith QArith Qreals Bool List Lra Lia.
From Verif Require Import Bytes Syntax Semantics Interval IntervalThm RPow.
Open Scope R_scope.

Section Precision.
Context {prc : setting}.

Lemma isqrt_ok i j x : isqrt i = Some j -> inside i x -> 0 <= x /\ inside j (sqrt x).
Proof.
  unfold isqrt. destruct (lo_nonneg i) eqn:P; [|discriminate]. intros E H. injection E as <-.
  pose proof (lo_nonneg_ok _ _ P H) as Hx. split; [exact Hx|].
  apply (iroot_ok 2 i x); [lia|exact H|apply sqrt_pos| |exact P]. change (Z.to_nat 2) with 2%nat. cbn. rewrite Rmult_1_r. apply sqrt_sqrt, Hx.
Qed.
Lemma Rcbrt_cube x : Rcbrt x * Rcbrt x * Rcbrt x = x.
Proof.
  assert (P : forall y, 0 < y -> Rpower y (1 / 3) * Rpower y (1 / 3) * Rpower y (1 / 3) = y).
  { intros y Hy. rewrite <- !Rpower_plus. replace (1 / 3 + 1 / 3 + 1 / 3) with 1 by field. apply Rpower_1, Hy. }
  unfold Rcbrt. destruct (Rlt_dec 0 x); [apply P; assumption|]. destruct (Req_EM_T x 0); [subst; ring|].
  pose proof (P (- x) ltac:(lra)). lra.
Qed.
Lemma Rcbrt_nonneg x : 0 <= x -> 0 <= Rcbrt x.
Proof. intros H. unfold Rcbrt. destruct (Rlt_dec 0 x); [left; apply Rpower_pos|]. destruct (Req_EM_T x 0); lra. Qed.
Lemma Rcbrt_opp x : Rcbrt (- x) = - Rcbrt x.
Proof.
  unfold Rcbrt. rewrite Ropp_involutive.
  destruct (Rlt_dec 0 (- x)), (Rlt_dec 0 x), (Req_EM_T x 0), (Req_EM_T (- x) 0); try lra.
Qed.
Lemma Rcbrt_le x y : x <= y -> Rcbrt x <= Rcbrt y.
Proof.
  intros H. pose proof (Rcbrt_cube x) as A. pose proof (Rcbrt_cube y) as B.
  set (a := Rcbrt x) in *. set (b := Rcbrt y) in *. destruct (Rle_or_lt a b) as [L|L]; [exact L|].
  assert (b * b * b < a * a * a); [|lra].
  assert (0 < (a - b) * (a * a + a * b + b * b)); [|nra].
  apply Rmult_lt_0_compat; [lra|]. assert (0 <= (a + b) * (a + b)) by nra. nra.
Qed.
Lemma icbrt_nonneg i x : lo_nonneg i = true -> inside i x -> inside (iroot_nonneg 3 i) (Rcbrt x).
Proof.
  intros P H. pose proof (lo_nonneg_ok _ _ P H) as Hx.
  apply (iroot_ok 3 i x); [lia|exact H|apply Rcbrt_nonneg, Hx| |exact P]. change (Z.to_nat 3) with 3%nat. cbn. rewrite Rmult_1_r, <- Rmult_assoc. apply Rcbrt_cube.
Qed.
Lemma cbrt_up b r x : 0 <= x -> x <= D2R b -> droot_up 3 b = Some r -> Rcbrt x <= D2R r.
Proof.
  intros Hx H E. apply (droot_up_spec 3 b (Rcbrt x) x r); [lia|apply Rcbrt_nonneg, Hx| |exact H|exact E].
  change (Z.to_nat 3) with 3%nat. cbn. rewrite Rmult_1_r, <- Rmult_assoc. apply Rcbrt_cube.
Qed.
Lemma icbrt_ok i x : inside i x -> inside (icbrt i) (Rcbrt x).
Proof.
  intros H. unfold icbrt. destruct (lo_nonneg i) eqn:P; [apply icbrt_nonneg; assumption|].
  destruct (lo_nonneg (ineg i)) eqn:N.
  { apply ineg_ok'. rewrite <- Rcbrt_opp. apply icbrt_nonneg; [exact N|apply ineg_ok, H]. }
  destruct H as [A B]. split; cbn [lo hi].
  - destruct (lo i) as [|a s] eqn:E; [exact I|]. destruct (droot_up 3 (dneg a)) as [r|] eqn:R; [|exact I].
    pose proof (not_nonneg_lo _ _ _ P E) as Na. apply lo_weak in A. cbn [in_lo]. rewrite dneg_R.
    assert (Ha : Rcbrt (- D2R a) <= D2R r) by (apply (cbrt_up (dneg a)); [lra|rewrite dneg_R; lra|exact R]).
    rewrite Rcbrt_opp in Ha. pose proof (Rcbrt_le _ _ A). lra.
  - destruct (hi i) as [|b s] eqn:E; [exact I|]. destruct (droot_up 3 b) as [r|] eqn:R; [|exact I].
    pose proof (not_nonpos_hi _ _ _ N E) as Pb. apply hi_weak in B. cbn [in_hi].
    assert (Hb : Rcbrt (D2R b) <= D2R r) by (apply (cbrt_up b); [lra|lra|exact R]).
    pose proof (Rcbrt_le _ _ B). lra.
Qed.

(** ** Powers with a rational exponent *)
Lemma Rpower_root x q : 0 < x -> Rpower x (Q2R q) ^ Pos.to_nat (Qden q) = powerRZ x (Qnum q).
Proof.
  intros Hx. rewrite <- Rpower_pow by apply Rpower_pos. rewrite Rpower_mult, powerRZ_Rpower by exact Hx. f_equal.
  rewrite INR_IZR_INZ, positive_nat_Z. unfold Q2R. field. apply IZR_neq. discriminate.
Qed.
Lemma pypow_pos x y : 0 < x -> pypow x y = Some (Rpower x y).
Proof. intros H. unfold pypow. destruct (Rlt_dec 0 x); [reflexivity|lra]. Qed.
Lemma pypow_0_pos y : 0 < y -> pypow 0 y = Some 0.
Proof.
  intros H. unfold pypow. destruct (Rlt_dec 0 0); [lra|]. destruct (Req_EM_T 0 0); [|lra].
  destruct (Rlt_dec 0 y); [|lra]. destruct (Req_EM_T y (IZR (Int_part y))); reflexivity.
Qed.
Lemma Int_part_IZR z : Int_part (IZR z) = z.
Proof. pose proof (base_Int_part (IZR z)) as [A B]. assert (IZR (Int_part (IZR z)) < IZR (z + 1)) by (rewrite plus_IZR; lra). assert (IZR (z - 1) < IZR (Int_part (IZR z))) by (rewrite minus_IZR; lra). apply lt_IZR in H, H0. lia. Qed.
(** x^z for an integer z, when defined. *)
Lemma pypow_Z x z : x <> 0 \/ (0 <= z)%Z -> pypow x (IZR z) = Some (powerRZ x z).
Proof.
  intros H. unfold pypow. rewrite Int_part_IZR. destruct (Rlt_dec 0 x) as [P|P].
  - f_equal. symmetry. apply powerRZ_Rpower, P.
  - destruct (Req_EM_T (IZR z) (IZR z)); [|congruence]. destruct (Req_EM_T x 0) as [->|]; [|reflexivity].
    destruct H as [H|H]; [lra|]. destruct (Rlt_dec 0 (IZR z)) as [Q|Q].
    + apply lt_IZR in Q. f_equal. destruct z; try lia. cbn. symmetry. apply pow_i. lia.
    + destruct (Req_EM_T (IZR z) 0) as [E|E]; [apply eq_IZR in E; subst; reflexivity|]. elim Q. apply IZR_lt.
      assert (z <> 0)%Z by (intros ->; apply E; reflexivity). lia.
Qed.
Lemma positive_itv_ok x : 0 < x -> inside positive_itv x.
Proof. intros H. split; cbn [in_lo in_hi lo hi positive_itv]; [rewrite D2R_zero; exact H|exact I]. Qed.
Lemma nonneg_itv_ok x : 0 <= x -> inside nonneg_itv x.
Proof. intros H. split; cbn [in_lo in_hi lo hi nonneg_itv]; [rewrite D2R_zero; exact H|exact I]. Qed.
Lemma ipow_q_ok i q j x : ipow_q i q = Some j -> inside i x -> exists v, pypow x (Q2R (Qred q)) = Some v /\ inside j v.
Proof.
  unfold ipow_q. set (r := Qred q). intros E H. destruct (lo_pos i) eqn:P.
  - pose proof (lo_pos_ok _ _ P H) as Hx. rewrite (pypow_pos _ _ Hx). exists (Rpower x (Q2R r)). split; [reflexivity|].
    destruct (_ && _)%bool; [|injection E as <-; apply positive_itv_ok, Rpower_pos].
    destruct (ipow i (Qnum r)) as [k|] eqn:K; [|discriminate]. destruct (lo_nonneg k) eqn:N; [|discriminate]. injection E as <-.
    destruct (ipow_ok _ _ _ _ K H) as [_ G].
    apply (iroot_ok _ k (powerRZ x (Qnum r))); [lia|exact G|left; apply Rpower_pos| |exact N].
    rewrite Z2Nat.inj_pos. apply Rpower_root, Hx.
  - destruct (lo_nonneg i && (0 <? Qnum r)%Z)%bool eqn:C; [|discriminate]. apply andb_prop in C. destruct C as [P0 C].
    apply Z.ltb_lt in C. pose proof (lo_nonneg_ok _ _ P0 H) as Hx.
    assert (Hq : 0 < Q2R r) by (apply Q2R_pos; unfold Qlt; cbn; lia).
    assert (V : exists v, pypow x (Q2R r) = Some v /\ 0 <= v /\ v ^ Pos.to_nat (Qden r) = powerRZ x (Qnum r)).
    { destruct Hx as [Hx|<-].
      - exists (Rpower x (Q2R r)). rewrite (pypow_pos _ _ Hx). split; [reflexivity|]. split; [left; apply Rpower_pos|apply Rpower_root, Hx].
      - exists 0. rewrite (pypow_0_pos _ Hq). split; [reflexivity|]. split; [lra|]. rewrite pow_i by lia.
        destruct (Qnum r); try lia. cbn. rewrite pow_i by lia. reflexivity. }
    destruct V as (v & E1 & Pv & Ev). exists v. split; [exact E1|].
    destruct (_ && _)%bool; [|injection E as <-; apply nonneg_itv_ok, Pv].
    destruct (ipow i (Qnum r)) as [k|] eqn:K; [|discriminate]. destruct (lo_nonneg k) eqn:N; [|discriminate]. injection E as <-.
    destruct (ipow_ok _ _ _ _ K H) as [_ G].
    apply (iroot_ok _ k (powerRZ x (Qnum r))); [lia|exact G|exact Pv| |exact N]. rewrite Z2Nat.inj_pos. exact Ev.
Qed.

(** ** Exponential and logarithm *)
Lemma exp_halve x : exp x = exp (x / 2) * exp (x / 2).
Proof. rewrite <- exp_plus. f_equal. field. Qed.
Fixpoint sq (k : nat) (x : R) : R := match k with O => x | S k => sq k (x * x) end.
Lemma sq_mono k : forall x y, 0 <= x -> x <= y -> sq k x <= sq k y.
Proof. induction k as [|k IH]; intros x y Hx H; cbn [sq]; [exact H|]. apply IH; nra. Qed.
Lemma sq_mono_strict k : forall x y, 0 <= x -> x < y -> sq k x < sq k y.
Proof. induction k as [|k IH]; intros x y Hx H; cbn [sq]; [exact H|]. apply IH; nra. Qed.
Lemma sq_exp k : forall x, sq k (exp x) = exp (x * 2 ^ k).
Proof.
  induction k as [|k IH]; intros x; cbn [sq pow]; [f_equal; ring|]. rewrite <- exp_plus, IH. f_equal. ring.
Qed.
Lemma rdn_nonneg a : 0 <= D2R a -> 0 <= D2R (rdn a).
Proof.
  destruct a as [m e]. intros H. assert (0 <= m)%Z.
  { pose proof (p2_pos e). unfold D2R in H. apply le_IZR. nra. }
  unfold rdn. destruct (_ <=? _)%Z; [exact H|]. unfold D2R. apply Rmult_le_pos; [|left; apply p2_pos].
  apply IZR_le, Z.shiftr_nonneg. assumption.
Qed.
Lemma dsq_dn_le k : forall a x, 0 <= D2R a -> D2R a <= x -> D2R (dsq_dn k a) <= sq k x.
Proof.
  induction k as [|k IH]; intros a x Ha H; cbn [dsq_dn sq]; [exact H|]. apply IH.
  - apply rdn_nonneg. rewrite dmul_R. nra.
  - eapply Rle_trans; [apply rdn_le|]. rewrite dmul_R. nra.
Qed.
Lemma dsq_up_ge k : forall a x, 0 <= x -> x <= D2R a -> sq k x <= D2R (dsq_up k a).
Proof.
  induction k as [|k IH]; intros a x Hx H; cbn [dsq_up sq]; [exact H|]. apply IH; [nra|].
  eapply Rle_trans; [|apply rup_ge]. rewrite dmul_R. nra.
Qed.
Lemma scale2_R a k : D2R (scale2 a k) = D2R a * p2 k.
Proof. destruct a. cbn. rewrite p2_add. ring. Qed.
Lemma p2_nat k : p2 (Z.of_nat k) = 2 ^ k.
Proof. rewrite p2_Z by lia. rewrite <- pow_IZR. reflexivity. Qed.
Lemma p2_m k : p2 (- Z.of_nat k) * 2 ^ k = 1.
Proof. rewrite <- p2_nat. apply p2_opp. Qed.
Lemma exp_ge1 x : 1 + x <= exp x.
Proof. destruct (Req_EM_T x 0) as [->|N]; [rewrite exp_0; lra|]. left. apply exp_ineq1, N. Qed.
Lemma exp_steps x : exp x = sq steps (exp (x * p2 (- Z.of_nat steps))).
Proof. rewrite sq_exp. f_equal. rewrite Rmult_assoc, p2_m. ring. Qed.
Lemma exp_dn_le a : D2R (exp_dn a) <= exp (D2R a).
Proof.
  unfold exp_dn. set (y := rdn _). pose proof (dsgn_R y) as S. destruct (dsgn y); try (rewrite D2R_zero; left; apply exp_pos).
  rewrite (exp_steps (D2R a)). apply dsq_dn_le; [lra|]. unfold y. eapply Rle_trans; [apply rdn_le|].
  rewrite dadd_R, D2R_one, scale2_R. apply exp_ge1.
Qed.
Lemma Some_inj {T} (x y : T) : Some x = Some y -> x = y.
Proof. congruence. Qed.
Lemma exp_up_ge a b : exp_up a = Some b -> exp (D2R a) <= D2R b.
Proof.
  unfold exp_up. set (y := rdn _). pose proof (dsgn_R y) as S. destruct (dsgn y); try discriminate. intros E. apply Some_inj in E. subst b.
  rewrite (exp_steps (D2R a)). apply dsq_up_ge; [left; apply exp_pos|].
  apply Rle_trans with (/ D2R y); [|apply dinv_up_ge, S].
  assert (L : D2R y <= exp (- (D2R a * p2 (- Z.of_nat steps)))).
  { unfold y. eapply Rle_trans; [apply rdn_le|]. rewrite dadd_R, D2R_one, dneg_R, scale2_R. apply exp_ge1. }
  apply Rinv_le_contravar in L; [|exact S]. rewrite exp_Ropp, Rinv_inv in L. exact L.
Qed.
Lemma exp_le_mono x y : x <= y -> exp x <= exp y.
Proof. intros [H| ->]; [left; apply exp_increasing, H|lra]. Qed.
Lemma iexp_ok i x : inside i x -> inside (iexp i) (exp x).
Proof.
  intros [A B]. pose proof (exp_pos x) as P. split; cbn [iexp lo hi].
  - destruct (lo i) as [|a s]; [cbn [in_lo]; rewrite D2R_zero; exact P|]. pose proof (dsgn_R (exp_dn a)) as S.
    destruct (dsgn (exp_dn a)); try (cbn [in_lo]; rewrite D2R_zero; exact P).
    pose proof (exp_dn_le a). destruct s; cbn in A |- *.
    + apply exp_increasing in A. lra.
    + apply exp_le_mono in A. lra.
  - destruct (hi i) as [|b s]; [exact I|]. destruct (exp_up b) as [y|] eqn:E; [|exact I]. pose proof (exp_up_ge _ _ E).
    destruct s; cbn in B |- *.
    + apply exp_increasing in B. lra.
    + apply exp_le_mono in B. lra.
Qed.
Lemma ln_le_sub1 x : 0 < x -> ln x <= x - 1.
Proof. intros H. pose proof (exp_ge1 (ln x)) as E. rewrite exp_ln in E by exact H. lra. Qed.
Lemma ln_sqrt x : 0 < x -> ln x = 2 * ln (sqrt x).
Proof.
  intros H. assert (0 < sqrt x) by (apply sqrt_lt_R0, H).
  rewrite <- (sqrt_sqrt x) at 1 by lra. rewrite ln_mult by assumption. ring.
Qed.
Lemma dsqrt_up_ok k : forall a b, dsqrt_up k a = Some b -> forall x, 0 < x -> x <= D2R a ->
  exists r, 0 < r /\ r <= D2R b /\ ln x = 2 ^ k * ln r.
Proof.
  induction k as [|k IH]; intros a b E x Hx H; cbn [dsqrt_up] in E.
  - injection E as <-. exists x. repeat split; auto. cbn. ring.
  - destruct (droot_up 2 a) as [c|] eqn:R; [|discriminate].
    assert (S : 0 < sqrt x) by (apply sqrt_lt_R0, Hx).
    assert (L : sqrt x <= D2R c).
    { apply (droot_up_spec 2 a (sqrt x) x c); [lia|lra| |exact H|exact R].
      change (Z.to_nat 2) with 2%nat. cbn. rewrite Rmult_1_r. apply sqrt_sqrt. lra. }
    destruct (IH c b E (sqrt x) S L) as (r & Hr & Lr & Er). exists r. repeat split; auto.
    rewrite (ln_sqrt x Hx), Er. cbn. ring.
Qed.
Lemma dsqrt_dn_ok k : forall a x, 0 < x -> 0 <= D2R a -> D2R a <= x -> 0 <= D2R (dsqrt_dn k a) /\
  exists r, 0 < r /\ D2R (dsqrt_dn k a) <= r /\ ln x = 2 ^ k * ln r.
Proof.
  induction k as [|k IH]; intros a x Hx Ha H; cbn [dsqrt_dn].
  - split; [exact Ha|]. exists x. repeat split; auto. cbn. ring.
  - assert (S : 0 < sqrt x) by (apply sqrt_lt_R0, Hx).
    assert (L : D2R (droot_dn 2 a) <= sqrt x).
    { apply (droot_dn_spec 2 a (sqrt x) x); [lia|exact Ha|lra| |exact H].
      change (Z.to_nat 2) with 2%nat. cbn. rewrite Rmult_1_r. apply sqrt_sqrt. lra. }
    assert (P : 0 <= D2R (droot_dn 2 a)).
    { unfold droot_dn. destruct (root_norm 2 a) as [m e]. destruct (_ <=? _)%Z; [|rewrite D2R_zero; lra].
      apply rdn_nonneg. unfold D2R. apply Rmult_le_pos; [apply IZR_le, zroot_ge0|left; apply p2_pos]. }
    destruct (IH (droot_dn 2 a) (sqrt x) S P L) as [P' (r & Hr & Lr & Er)]. split; [exact P'|]. exists r. repeat split; auto.
    rewrite (ln_sqrt x Hx), Er. cbn. ring.
Qed.
Lemma p2_6 : p2 6 = 64. Proof. rewrite p2_Z by lia. reflexivity. Qed.
Lemma pow2_pos k : 0 < 2 ^ k. Proof. apply pow_lt. lra. Qed.
Lemma ln_up_ok a y x : ln_up a = Some y -> 0 < x -> x <= D2R a -> ln x <= D2R y.
Proof.
  unfold ln_up. destruct (dsqrt_up steps a) as [r|] eqn:E; [|discriminate]. intros H Hx L. apply Some_inj in H. subst y.
  destruct (dsqrt_up_ok _ _ _ E x Hx L) as (s & Hs & Ls & ->). eapply Rle_trans; [|apply rup_ge].
  rewrite scale2_R, dadd_R, dneg_R, D2R_one, p2_nat, Rmult_comm. apply Rmult_le_compat_r; [left; apply pow2_pos|]. pose proof (ln_le_sub1 s Hs). lra.
Qed.
Lemma ln_dn_ok a y x : ln_dn a = Some y -> 0 < x -> 0 <= D2R a -> D2R a <= x -> D2R y <= ln x.
Proof.
  unfold ln_dn. set (r := dsqrt_dn steps a). pose proof (dsgn_R r) as S. destruct (dsgn r); try discriminate. intros H Hx Ha L. apply Some_inj in H. subst y.
  destruct (dsqrt_dn_ok steps a x Hx Ha L) as [_ (s & Hs & Ls & ->)]. eapply Rle_trans; [apply rdn_le|].
  rewrite scale2_R, dadd_R, dneg_R, D2R_one, p2_nat. fold r in Ls.
  pose proof (dinv_up_ge r S). pose proof (Rinv_le_contravar _ _ S Ls).
  assert (Hi : 0 < / s) by (apply Rinv_0_lt_compat, Hs). pose proof (ln_le_sub1 (/ s) Hi) as G. rewrite ln_Rinv in G by exact Hs.
  rewrite (Rmult_comm (2 ^ steps)). apply Rmult_le_compat_r; [left; apply pow2_pos|]. lra.
Qed.
Lemma ln_le_mono x y : 0 < x -> x <= y -> ln x <= ln y.
Proof. intros H [L| ->]; [left; apply ln_increasing; assumption|lra]. Qed.
Lemma iln_ok i j x : iln i = Some j -> inside i x -> 0 < x /\ inside j (ln x).
Proof.
  unfold iln. destruct (lo_pos i) eqn:P; [|discriminate]. intros E H. injection E as <-.
  pose proof (lo_pos_ok _ _ P H) as Hx. split; [exact Hx|]. destruct H as [A B]. split; cbn [lo hi].
  - destruct (lo i) as [|a s]; [exact I|]. pose proof (dsgn_R a) as S. destruct (dsgn a); try exact I.
    destruct (ln_dn a) as [y|] eqn:E; [|exact I].
    pose proof (ln_dn_ok a y (D2R a) E S ltac:(lra) ltac:(lra)) as L. destruct s; cbn in A |- *.
    + pose proof (ln_increasing _ _ S A). lra.
    + pose proof (ln_le_mono _ _ S A). lra.
  - destruct (hi i) as [|b s]; [exact I|]. pose proof (dsgn_R b) as S. destruct (dsgn b); try exact I.
    destruct (ln_up b) as [y|] eqn:E; [|exact I].
    pose proof (ln_up_ok b y (D2R b) E S ltac:(lra)) as L. destruct s; cbn in B |- *.
    + pose proof (ln_increasing _ _ Hx B). lra.
    + pose proof (ln_le_mono _ _ Hx B). lra.
Qed.

(** ** Comparisons *)
Lemma bnd_lt_ok h l x y : bnd_lt h l = true -> in_hi h x -> in_lo l y -> x < y.
Proof.
  destruct h as [|u s], l as [|v t]; cbn [bnd_lt]; try discriminate. pose proof (dcmp_R u v) as C. intros H A B.
  destruct (dcmp u v); [|apply hi_weak in A; apply lo_weak in B; lra|discriminate].
  apply orb_prop in H. destruct H as [-> | ->]; [apply lo_weak in B; cbn in A|apply hi_weak in A; cbn in B]; lra.
Qed.
Lemma bnd_le_ok h l x y : bnd_le h l = true -> in_hi h x -> in_lo l y -> x <= y.
Proof.
  destruct h as [|u s], l as [|v t]; cbn [bnd_le]; try discriminate. pose proof (dcmp_R u v) as C. intros H A B.
  apply hi_weak in A. apply lo_weak in B. destruct (dcmp u v); [lra|lra|discriminate].
Qed.
Lemma ile_ok i j b x y : ile i j = Some b -> inside i x -> inside j y -> Rleb x y = b.
Proof.
  unfold ile, Rleb. intros H [A B] [C E]. destruct (bnd_le (hi i) (lo j)) eqn:L.
  - injection H as <-. pose proof (bnd_le_ok _ _ _ _ L B C). destruct (Rle_dec x y); [reflexivity|lra].
  - destruct (bnd_lt (hi j) (lo i)) eqn:M; [|discriminate]. injection H as <-. pose proof (bnd_lt_ok _ _ _ _ M E A). destruct (Rle_dec x y); [lra|reflexivity].
Qed.
Lemma ilt_ok i j b x y : ilt i j = Some b -> inside i x -> inside j y -> Rltb x y = b.
Proof.
  unfold ilt, Rltb. intros H [A B] [C E]. destruct (bnd_lt (hi i) (lo j)) eqn:L.
  - injection H as <-. pose proof (bnd_lt_ok _ _ _ _ L B C). destruct (Rlt_dec x y); [reflexivity|lra].
  - destruct (bnd_le (hi j) (lo i)) eqn:M; [|discriminate]. injection H as <-. pose proof (bnd_le_ok _ _ _ _ M E A). destruct (Rlt_dec x y); [lra|reflexivity].
Qed.
Lemma ieq_ok i j b x y : ieq i j = Some b -> inside i x -> inside j y -> Reqb x y = b.
Proof.
  unfold ieq, Reqb. intros H [A B] [C E]. destruct (_ || _) eqn:L; [|discriminate]. injection H as <-.
  destruct (Req_EM_T x y) as [Q|Q]; [|reflexivity]. apply orb_prop in L. destruct L as [L|L].
  - pose proof (bnd_lt_ok _ _ _ _ L B C). lra.
  - pose proof (bnd_lt_ok _ _ _ _ L E A). lra.
Qed.
End Precision.
