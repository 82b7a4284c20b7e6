(** Soundness of the abstract interpretation: functions, powers, branch facts and programs. *)
From Coq Require Import Reals ZArith NArith QArith Qreals Bool List Lra Lia.
From Verif Require Import Bytes Syntax Semantics Free RPow Interval IntervalThm IntervalThm2 Absint AbsintThm AbsintFine.
Import ListNotations.
Open Scope R_scope.

Section Precision.
Context {prc : setting}.

Lemma atan_odd_in x : odd_in 2 x (atan x).
Proof.
  pose proof (atan_bound x). pose proof PI_4. split; [|split; [|split]].
  - intros H1. rewrite <- atan_0. apply atan_increasing, H1.
  - intros H1. rewrite <- atan_0. apply atan_increasing, H1.
  - intros ->. apply atan_0.
  - lra.
Qed.
Lemma tanh_odd_in x : odd_in 1 x (tanh x).
Proof.
  unfold tanh, sinh, cosh. set (u := exp x). set (w := exp (- x)).
  assert (U : 0 < u) by apply exp_pos. assert (W : 0 < w) by apply exp_pos.
  replace ((u - w) / 2 / ((u + w) / 2)) with ((u - w) / (u + w)) by (field; lra).
  assert (D : 0 < / (u + w)) by (apply Rinv_0_lt_compat; lra).
  assert (O : (u + w) * / (u + w) = 1) by (apply Rinv_r; lra). unfold Rdiv.
  split; [|split; [|split]].
  - intros H. assert (w < u) by (apply exp_increasing; lra). apply Rmult_lt_0_compat; lra.
  - intros H. assert (u < w) by (apply exp_increasing; lra).
    assert (0 < (w - u) * / (u + w)) by (apply Rmult_lt_0_compat; lra). lra.
  - intros ->. unfold u, w. rewrite Ropp_0. ring.
  - split; apply Rminus_gt_0_lt.
    + replace ((u - w) * / (u + w) - - (1)) with (2 * (u * / (u + w))) by (rewrite <- O; ring).
      assert (0 < u * / (u + w)) by (apply Rmult_lt_0_compat; lra). lra.
    + replace (1 - (u - w) * / (u + w)) with (2 * (w * / (u + w))) by (rewrite <- O at 1; ring).
      assert (0 < w * / (u + w)) by (apply Rmult_lt_0_compat; lra). lra.
Qed.
Lemma asinh_signs x : (0 < x -> 0 < arcsinh x) /\ (x < 0 -> arcsinh x < 0) /\ (x = 0 -> arcsinh x = 0).
Proof.
  assert (Z : arcsinh 0 = 0) by apply arcsinh_0.
  split; [|split]; intros H; try (rewrite <- Z; apply arcsinh_lt; exact H). subst x. exact Z.
Qed.
Lemma atanh_signs x : Rabs x < 1 -> (0 < x -> 0 < Ratanh x) /\ (x < 0 -> Ratanh x < 0) /\ (x = 0 -> Ratanh x = 0).
Proof.
  intros H. apply Rabs_def2 in H. unfold Ratanh.
  assert (P : 0 < / (1 - x)) by (apply Rinv_0_lt_compat; lra).
  assert (O : (1 - x) * / (1 - x) = 1) by (apply Rinv_r; lra).
  assert (Q : 0 < (1 + x) / (1 - x)) by (apply Rmult_lt_0_compat; lra).
  assert (E : (1 + x) / (1 - x) = 1 + 2 * (x * / (1 - x))) by (field; lra).
  split; [|split]; intros Hx.
  - assert (0 < x * / (1 - x)) by (apply Rmult_lt_0_compat; lra).
    assert (ln 1 < ln ((1 + x) / (1 - x))) by (apply ln_increasing; lra). rewrite ln_1 in *. lra.
  - assert (0 < - x * / (1 - x)) by (apply Rmult_lt_0_compat; lra).
    assert (ln ((1 + x) / (1 - x)) < ln 1) by (apply ln_increasing; lra). rewrite ln_1 in *. lra.
  - rewrite E, Hx. replace (1 + 2 * (0 * / (1 - 0))) with 1 by ring. rewrite ln_1. lra.
Qed.
Lemma cosh_ge1 x : 1 <= cosh x.
Proof.
  unfold cosh. set (u := exp x). set (w := exp (- x)). assert (U : 0 < u) by apply exp_pos. assert (W : 0 < w) by apply exp_pos.
  assert (P : u * w = 1). { unfold u, w. rewrite <- exp_plus. replace (x + - x) with 0 by ring. apply exp_0. }
  assert (0 <= (u - w) * (u - w)) by (apply Rle_0_sqr).
  assert (4 <= (u + w) * (u + w)) by lra.
  destruct (Rle_lt_dec 2 (u + w)); [lra|]. assert ((u + w) * (u + w) < 2 * 2) by (apply Rmult_le_0_lt_compat; lra). lra.
Qed.

Section Ops.
Variable I : interp.
Hypothesis HI : ops_ok I.

Lemma coarse1_ok f i j x : coarse1 f i = Some j -> inside i x -> exists v, fn1_sem I f x = Some v /\ inside j v.
Proof.
  intros H Hx. destruct f; cbn [coarse1 fn1_sem] in *.
  - destruct (isqrt_ok _ _ _ H Hx) as [P Q]. destruct (Rle_dec 0 x); [|contradiction]. eauto.
  - apply Some_inj in H. subst j. eexists. split; [reflexivity|]. apply icbrt_ok, Hx.
  - apply Some_inj in H. subst j. eexists. split; [reflexivity|]. apply iexp_ok, Hx.
  - destruct (iln_ok _ _ _ H Hx) as [P Q]. destruct (Rlt_dec 0 x); [|contradiction]. eauto.
  - apply Some_inj in H. subst j. eexists. split; [reflexivity|]. eapply small_odd_ok; [|apply atan_odd_in|exact Hx]. apply D2R_int.
  - apply Some_inj in H. subst j. eexists. split; [reflexivity|]. apply odd_sign_ok with (x := x); try apply asinh_signs. exact Hx.
  - destruct (_ && _) eqn:B in H; [|discriminate]. apply Some_inj in H. subst j. apply andb_prop in B. destruct B as [B1 B2].
    assert (A : x < 1) by (apply (bnd_lt_ok _ _ _ _ B1 (proj2 Hx)); cbn [in_lo]; rewrite D2R_one; lra).
    assert (A' : -1 < x) by (apply (bnd_lt_ok _ _ _ _ B2); [cbn [in_hi]; rewrite D2R_int; lra|exact (proj1 Hx)]).
    assert (C : Rabs x < 1) by (apply Rabs_def1; lra). destruct (Rlt_dec (Rabs x) 1); [|contradiction].
    eexists. split; [reflexivity|]. apply odd_sign_ok with (x := x); try apply (atanh_signs x C). exact Hx.
  - apply Some_inj in H. subst j. eexists. split; [reflexivity|]. eapply small_odd_ok; [|apply tanh_odd_in|exact Hx]. apply D2R_one.
  - apply Some_inj in H. subst j. eexists. split; [reflexivity|]. split; cbn [lo hi in_lo in_hi]; [rewrite D2R_one; apply cosh_ge1|exact Logic.I].
  - apply Some_inj in H. subst j. eexists. split; [reflexivity|]. apply unit_itv_ok, SIN_bound.
  - apply Some_inj in H. subst j. eexists. split; [reflexivity|]. apply unit_itv_ok, COS_bound.
  - apply Some_inj in H. subst j. eexists. split; [reflexivity|]. apply iabs_ok, Hx.
  - apply Some_inj in H. subst j. eexists. split; [reflexivity|]. destruct (lo_nonneg i) eqn:A.
    + pose proof (lo_nonneg_ok _ _ A Hx). destruct (Rle_dec 0 x); [|contradiction]. rewrite <- D2R_one. apply const_ok.
    + destruct (lo_pos (ineg i)) eqn:B.
      * pose proof (lo_pos_ok _ _ B (ineg_ok _ _ Hx)). destruct (Rle_dec 0 x); [lra|]. rewrite <- D2R_zero. apply const_ok.
      * split; cbn [lo hi in_lo in_hi]; rewrite ?D2R_zero, ?D2R_one; destruct (Rle_dec 0 x); lra.
  - destruct (beqb name "erf") eqn:E1.
    { apply beqb_eq in E1. subst name. apply Some_inj in H. subst j. destruct (erf_ok _ HI x) as (v & E & O). exists v. split; [exact E|].
      apply small_odd_ok with (M := 1) (x := x); [apply D2R_int|exact O|exact Hx]. }
    destruct (beqb name "erfc") eqn:E2.
    { apply beqb_eq in E2. subst name. apply Some_inj in H. subst j. destruct (erfc_ok _ HI x) as (v & E & O). exists v. split; [exact E|].
      split; cbn [lo hi in_lo in_hi]; rewrite ?D2R_zero, ?D2R_int; lra. }
    destruct (beqb name "xc_erfcx") eqn:E3.
    { apply beqb_eq in E3. subst name. apply Some_inj in H. subst j. destruct (erfcx_ok _ HI x) as (v & E & O). exists v. split; [exact E|apply positive_itv_ok, O]. }
    destruct (beqb name "lambertw") eqn:E4.
    { apply beqb_eq in E4. subst name. destruct (lo_nonneg i) eqn:A; [|discriminate]. apply Some_inj in H. subst j.
      destruct (lambertw_ok _ HI x (lo_nonneg_ok _ _ A Hx)) as (v & E & O). exists v. split; [exact E|apply nonneg_itv_ok; lra]. }
    destruct (beqb name "xc_E1_scaled") eqn:E5.
    { apply beqb_eq in E5. subst name. destruct (lo_pos i) eqn:A; [|discriminate]. apply Some_inj in H. subst j.
      pose proof (lo_pos_ok _ _ A Hx) as P. destruct (e1_ok _ HI x P) as (v & E & O). exists v. split; [exact E|apply positive_itv_ok].
      assert (0 < 1 / (x + 1)) by (apply Rdiv_lt_0_compat; lra). lra. }
    destruct (beqb name "i0") eqn:E6; [|discriminate].
    apply beqb_eq in E6. subst name. apply Some_inj in H. subst j. destruct (i0_ok _ HI x) as (v & E & O). exists v. split; [exact E|].
    split; cbn [lo hi in_lo in_hi]; rewrite ?D2R_one; [exact (proj1 O)|exact Logic.I].
Qed.

Lemma afn1_ok f i j x : afn1 f i = Some j -> inside i x -> exists v, fn1_sem I f x = Some v /\ inside j v.
Proof.
  unfold afn1. intros H Hx. destruct fine_fns; [|exact (coarse1_ok _ _ _ _ H Hx)].
  assert (G : option_map (fun k => meet k (fine1 f i)) (coarse1 f i) = Some j -> exists v, fn1_sem I f x = Some v /\ inside j v).
  { clear H. intros H. destruct (coarse1 f i) as [k|] eqn:E; [|discriminate]. injection H as <-.
    destruct (coarse1_ok _ _ _ _ E Hx) as (v & Ev & Iv). exists v. split; [exact Ev|].
    apply meet_ok; [exact Iv|exact (fine1_ok I f i x v HI Ev Hx)]. }
  destruct f; try exact (G H); clear G; cbn [fn1_sem].
  - injection H as <-. eexists. split; [reflexivity|apply fexp_ok, Hx].
  - destruct (lo_pos i) eqn:P; [|discriminate]. injection H as <-. pose proof (lo_pos_ok _ _ P Hx) as Px.
    destruct (Rlt_dec 0 x); [|contradiction]. eexists. split; [reflexivity|apply fln_ok; assumption].
Qed.

Lemma qconst_ok rho : forall e q, qconst e = Some q -> eval I rho e = Some (VR (Q2R q)).
Proof.
  induction e; cbn [qconst eval]; intros q' H; try discriminate.
  - apply Some_inj in H. subst q'. reflexivity.
  - destruct (qconst e) as [x|]; [|discriminate]. apply Some_inj in H. subst q'. rewrite (IHe _ eq_refl). cbn [lift1]. rewrite Q2R_opp. reflexivity.
  - destruct (qconst e1) as [x|]; [|discriminate]. destruct (qconst e2) as [y|]; [|discriminate].
    destruct (Qeq_bool y 0) eqn:Z; [discriminate|]. apply Some_inj in H. subst q'.
    rewrite (IHe1 _ eq_refl), (IHe2 _ eq_refl). cbn [lift2].
    assert (N : ~ (y == 0)%Q) by (intros N; apply Qeq_bool_iff in N; congruence).
    destruct (Req_EM_T (Q2R y) 0) as [E|E].
    { exfalso. apply N, eqR_Qeq. rewrite E, Q2R_0. reflexivity. }
    rewrite (Q2R_div x y N). reflexivity.
Qed.

(** ** What an abstract value says about a value *)
Definition good (v : option val) (a : aval) : Prop :=
  match a with
  | AR i d => match v with Some (VR x) => inside i x | Some (VB _) => False | None => d = false end
  | AB t d => match v with Some (VB b) => forall c, t = Some c -> b = c | Some (VR _) => False | None => d = false end
  | ATop => True
  end.
Definition formed (b : list R) (v : option val) (f : option lfrac) : Prop :=
  match v, f with Some (VR x), Some f => form_val b f x | _, _ => True end.
Definition fine (b : list R) (v : option val) (a : ainfo) : Prop := good v (fst a) /\ formed b v (snd a).

Lemma good_top v : (forall c, v <> Some (VB c)) -> good v (AR top false).
Proof. intros H. destruct v as [[x|c]|]; cbn [good]; [apply inside_top|exact (H c eq_refl)|reflexivity]. Qed.
Lemma lift1_real f v c : lift1 f v <> Some (VB c).
Proof. unfold lift1. destruct v as [[x|]|]; try discriminate. destruct (f x); discriminate. Qed.
Lemma lift2_real f v w c : lift2 f v w <> Some (VB c).
Proof. unfold lift2. destruct v as [[x|]|], w as [[y|]|]; try discriminate. destruct (f x y); discriminate. Qed.

Lemma lift_a1_ok (f : itv -> option itv) (g : R -> option R) v a :
  (forall i j x, f i = Some j -> inside i x -> exists z, g x = Some z /\ inside j z) ->
  good v a -> good (lift1 g v) (lift_a1 f a).
Proof.
  intros F G. unfold lift_a1. destruct a as [i d|t d|]; try (apply good_top; intros c; apply lift1_real).
  destruct (f i) as [k|] eqn:E; [|apply good_top; intros c; apply lift1_real].
  destruct v as [[x|c]|]; cbn [good lift1] in *; try exact G; [|contradiction].
  destruct (F _ _ _ E G) as (z & -> & Hz). exact Hz.
Qed.
Lemma lift_a2_ok (f : itv -> itv -> option itv) (g : R -> R -> option R) v w a b :
  (forall i j k x y, f i j = Some k -> inside i x -> inside j y -> exists z, g x y = Some z /\ inside k z) ->
  good v a -> good w b -> good (lift2 g v w) (lift_a2 f a b).
Proof.
  intros F G H. unfold lift_a2.
  destruct a as [i d|t d|]; try (apply good_top; intros c; apply lift2_real).
  destruct b as [j d'|t d'|]; try (apply good_top; intros c; apply lift2_real).
  destruct (f i j) as [k|] eqn:E; [|apply good_top; intros c; apply lift2_real].
  destruct v as [[x|c]|], w as [[y|c']|]; cbn [good lift2] in *; try contradiction; subst; try reflexivity; try (apply andb_false_r).
  destruct (F _ _ _ _ _ E G H) as (z & -> & Hz). exact Hz.
Qed.
Lemma and_d_ok v d a : good v a -> good v (and_d d a).
Proof.
  destruct a as [i d'|t d'|]; cbn [and_d good]; try (destruct v as [[x|c]|]; intros H; try exact H; subst; apply andb_false_r).
Qed.
Lemma and_d_none d a : d = false -> good None (and_d d a).
Proof. intros ->. destruct a; cbn [and_d good]; try reflexivity; exact Logic.I. Qed.

Lemma pow_q_ok i q j x : pow_q i q = Some j -> inside i x -> exists v, pypow x (Q2R q) = Some v /\ inside j v.
Proof.
  unfold pow_q. destruct (ipow_q i q) as [k|] eqn:E; [|discriminate]. intros H Hx.
  destruct (ipow_q_ok _ _ _ _ E Hx) as (v & V & Iv). rewrite Q2R_red in V. exists v. split; [exact V|].
  destruct (hi k); [|injection H as <-; exact Iv]. injection H as <-. destruct (fine_fns && lo_pos i) eqn:B; [|exact Iv].
  apply andb_prop in B. destruct B as [_ P]. pose proof (lo_pos_ok _ _ P Hx) as Px. rewrite (pypow_pos _ _ Px) in V. injection V as <-.
  apply ipower_ok; [exact Px|exact Hx|apply of_Q_ok].
Qed.
Lemma apow_ok rho a b i w : inside i a -> good (eval I rho b) w ->
  good (match eval I rho b with Some (VR y) => match pypow a y with Some z => Some (VR z) | None => None end | _ => None end) (apow b i w).
Proof.
  intros Ha Hw.
  assert (N : forall c, (match eval I rho b with Some (VR y) => match pypow a y with Some z => Some (VR z) | None => None end | _ => None end) <> Some (VB c)).
  { intros c. destruct (eval I rho b) as [[y|]|]; try discriminate. destruct (pypow a y); discriminate. }
  unfold apow. destruct (qconst b) as [q|] eqn:E.
  - pose proof (qconst_ok rho _ _ E) as Eb. rewrite Eb in *. destruct (Pos.eqb (Qden (Qred q)) 1) eqn:D.
    + destruct (ipow i (Qnum (Qred q))) as [k|] eqn:P; [|apply good_top, N].
      destruct (ipow_ok _ _ _ _ P Ha) as [S H]. apply Pos.eqb_eq in D.
      assert (Eq : Q2R q = IZR (Qnum (Qred q))).
      { rewrite <- (Q2R_red q). unfold Q2R. rewrite D. field. }
      rewrite Eq, (pypow_Z _ _ S). exact H.
    + destruct (pow_q i (Qred q)) as [k|] eqn:P; [|apply good_top, N].
      destruct (pow_q_ok _ _ _ _ P Ha) as (v & V & H). rewrite Q2R_red in V. rewrite V. exact H.
  - destruct w as [j d|t d|]; try (apply good_top, N).
    destruct (eval I rho b) as [[y|c]|] eqn:Eb; cbn [good] in Hw.
    + destruct (lo_pos i) eqn:P.
      * pose proof (lo_pos_ok _ _ P Ha) as Pa. rewrite (pypow_pos _ _ Pa). destruct fine_fns; [|apply positive_itv_ok, exp_pos].
        apply ipower_ok; [exact Pa|exact Ha|exact Hw].
      * destruct (lo_nonneg i && lo_pos j) eqn:Q; [|apply good_top, N].
        apply andb_prop in Q. destruct Q as [Q1 Q2]. pose proof (lo_nonneg_ok _ _ Q1 Ha) as Na. pose proof (lo_pos_ok _ _ Q2 Hw) as Py.
        destruct Na as [Na|<-].
        -- rewrite (pypow_pos _ _ Na). apply nonneg_itv_ok. left. unfold Rpower. apply exp_pos.
        -- rewrite (pypow_0_pos _ Py). apply nonneg_itv_ok. lra.
    + contradiction.
    + subst d. destruct (lo_pos i); [reflexivity|]. destruct (_ && _); reflexivity.
Qed.

(** ** Expressions equal as syntax *)
Lemma q_eqb_eq p q : q_eqb p q = true -> p = q.
Proof. unfold q_eqb. intros H. apply andb_prop in H. destruct H as [A B]. apply Z.eqb_eq in A. apply Pos.eqb_eq in B. destruct p, q; cbn in *; subst; reflexivity. Qed.
Lemma fn1_eqb_eq f g : fn1_eqb f g = true -> f = g.
Proof. destruct f, g; cbn [fn1_eqb]; intros H; try discriminate; try reflexivity. apply beqb_eq in H. subst. reflexivity. Qed.
Lemma cmp_eqb_eq f g : cmp_eqb f g = true -> f = g.
Proof. destruct f, g; cbn; intros H; try discriminate; reflexivity. Qed.
Lemma eeqb_eq : forall e f, eeqb e f = true -> e = f.
Proof.
  induction e; intros [] H; cbn [eeqb] in H; try discriminate;
    repeat match goal with H : _ && _ = true |- _ => apply andb_prop in H; destruct H end;
    repeat match goal with
    | H : q_eqb _ _ = true |- _ => apply q_eqb_eq in H; subst
    | H : beqb _ _ = true |- _ => apply beqb_eq in H; subst
    | H : cmp_eqb _ _ = true |- _ => apply cmp_eqb_eq in H; subst
    | H : fn1_eqb _ _ = true |- _ => apply fn1_eqb_eq in H; subst
    | IH : forall f, eeqb ?e f = true -> ?e = f, H : eeqb ?e _ = true |- _ => apply IH in H; subst
    end; reflexivity.
Qed.

(** ** Facts *)
Section Env.
Variable rho : Semantics.env.
Variable b : list R.
Hypothesis Hb : headed b.
Variable sg : list sort.
Hypothesis Hsg : Forall2 sat_sort sg b.

Definition facts_ok (fs : list fact) : Prop := forall e i x, In (e, i) fs -> eval I rho e = Some (VR x) -> inside i x.
Lemma known_ok fs e x : facts_ok fs -> eval I rho e = Some (VR x) -> forall i, inside i x -> inside (known fs e i) x.
Proof.
  induction fs as [|[f j] fs IH]; intros F E i H; cbn [known]; [exact H|].
  assert (F' : facts_ok fs) by (intros f' i' x' Hin; apply F; right; exact Hin).
  apply (IH F' E). destruct (eeqb e f) eqn:Q; [|exact H]. apply eeqb_eq in Q. subst f.
  apply meet_ok; [apply (F e j x); [left; reflexivity|exact E]|exact H].
Qed.
Lemma refine_ok fs e v f : facts_ok fs -> good (eval I rho e) v -> formed b (eval I rho e) f -> fine b (eval I rho e) (refine sg fs e v f).
Proof.
  intros F G H. unfold refine. destruct v as [i d|t d|]; try (split; assumption). split; cbn [fst snd]; [|exact H].
  destruct (eval I rho e) as [[x|c]|] eqn:E; cbn [good] in *; try assumption.
  apply (known_ok _ _ _ F E). destruct f as [f|]; [|exact G]. apply meet_ok; [exact G|]. apply (fitv_ok b sg Hsg). exact H.
Qed.
Lemma as_itv_ok v a x : fine b v a -> v = Some (VR x) -> inside (as_itv a) x.
Proof. intros [G _] ->. destruct a as [[i d|t d|] f]; cbn in *; try contradiction; [exact G|apply inside_top]. Qed.

Lemma strictly_hi h x y : in_hi h y -> x < y -> in_hi (strictly h) x.
Proof. destruct h as [|a [|]]; cbn; intros H L; try exact Logic.I; lra. Qed.
Lemma weakly_hi h x y : in_hi h y -> x <= y -> in_hi h x.
Proof. destruct h as [|a [|]]; cbn; intros H L; try exact Logic.I; lra. Qed.
Lemma strictly_lo h x y : in_lo h y -> y < x -> in_lo (strictly h) x.
Proof. destruct h as [|a [|]]; cbn; intros H L; try exact Logic.I; lra. Qed.
Lemma weakly_lo h x y : in_lo h y -> y <= x -> in_lo h x.
Proof. destruct h as [|a [|]]; cbn; intros H L; try exact Logic.I; lra. Qed.

Lemma assume_ok value c t : (forall e, fine b (eval I rho e) (value e)) -> eval I rho c = Some (VB t) -> facts_ok (assume value c t).
Proof.
  intros V. induction c; cbn [assume]; intros E; try (intros e' i' x' []).
  - cbn [eval] in E. destruct (eval I rho c1) as [[x|]|] eqn:E1; try discriminate. destruct (eval I rho c2) as [[y|]|] eqn:E2; try discriminate.
    injection E as E. pose proof (V c1) as V1. pose proof (V c2) as V2. rewrite E1 in V1. rewrite E2 in V2.
    pose proof (as_itv_ok _ _ _ V1 eq_refl) as [L1 H1]. pose proof (as_itv_ok _ _ _ V2 eq_refl) as [L2 H2].
    destruct o; cbn [cmp_sem] in E.
    + unfold Rleb in E. destruct (Rle_dec x y) as [L|L]; subst t; intros e' i' x' [Hin|[Hin|[]]] Ev; injection Hin as <- <-;
        rewrite ?E1, ?E2 in Ev; injection Ev as <-; split; cbn [lo hi in_lo in_hi]; try exact Logic.I.
      * exact (weakly_hi _ _ _ H2 L). * exact (weakly_lo _ _ _ L1 L).
      * apply (strictly_hi _ _ _ H1). lra. * apply (strictly_lo _ _ _ L2). lra.
    + unfold Rltb in E. destruct (Rlt_dec x y) as [L|L]; subst t; intros e' i' x' [Hin|[Hin|[]]] Ev; injection Hin as <- <-;
        rewrite ?E1, ?E2 in Ev; injection Ev as <-; split; cbn [lo hi in_lo in_hi]; try exact Logic.I.
      * exact (strictly_hi _ _ _ H2 L). * exact (strictly_lo _ _ _ L1 L).
      * apply (weakly_hi _ _ _ H1). lra. * apply (weakly_lo _ _ _ L2). lra.
    + unfold Reqb in E. destruct (Req_EM_T x y) as [Q|Q]; subst t.
      * intros e' i' x' [Hin|[Hin|[]]] Ev; injection Hin as <- <-; rewrite ?E1, ?E2 in Ev; injection Ev as <-; [rewrite Q|rewrite <- Q]; split; assumption.
      * destruct (bnd_le (hi (as_itv (value c2))) (lo (as_itv (value c1)))) eqn:B1.
        { pose proof (bnd_le_ok _ _ _ _ B1 H2 L1) as L. intros e' i' x' [Hin|[]] Ev; injection Hin as <- <-; rewrite E1 in Ev; injection Ev as <-.
          split; cbn [lo hi in_lo in_hi]; [|exact Logic.I]. apply (strictly_lo _ _ _ L2). lra. }
        destruct (bnd_le (hi (as_itv (value c1))) (lo (as_itv (value c2)))) eqn:B2; [|intros e' i' x' []].
        pose proof (bnd_le_ok _ _ _ _ B2 H1 L2) as L. intros e' i' x' [Hin|[]] Ev; injection Hin as <- <-; rewrite E1 in Ev; injection Ev as <-.
        split; cbn [lo hi in_lo in_hi]; [exact Logic.I|]. apply (strictly_hi _ _ _ H2). lra.
  - destruct t; [intros e' i' x' []|]. cbn [eval] in E. destruct (eval I rho c1) as [[|p]|]; try discriminate. destruct (eval I rho c2) as [[|q]|]; try discriminate.
    injection E as E. apply orb_false_elim in E. destruct E as [-> ->]. intros e' i' x' Hin. apply in_app_or in Hin. destruct Hin as [Hin|Hin].
    + exact (IHc1 eq_refl e' i' x' Hin). + exact (IHc2 eq_refl e' i' x' Hin).
  - destruct t; [|intros e' i' x' []]. cbn [eval] in E. destruct (eval I rho c1) as [[|p]|]; try discriminate. destruct (eval I rho c2) as [[|q]|]; try discriminate.
    injection E as E. apply andb_prop in E. destruct E as [-> ->]. intros e' i' x' Hin. apply in_app_or in Hin. destruct Hin as [Hin|Hin].
    + exact (IHc1 eq_refl e' i' x' Hin). + exact (IHc2 eq_refl e' i' x' Hin).
Qed.
End Env.
End Ops.
End Precision.
