(** Soundness of the abstract interpretation of whole programs. *)
From Coq Require Import Reals ZArith NArith QArith Qreals Bool List Lra Lia.
From Verif Require Import Bytes Syntax Semantics Free RPow Interval IntervalThm IntervalThm2 Absint AbsintThm AbsintFine AbsintThm2 AbsintSpecial.
Import ListNotations.
Open Scope R_scope.

Section Precision.
Context {prc : setting} {pik : pi_known}.

Lemma part_itv_ok i j x y : inside i x -> inside j y -> inside (part_itv i j) (x / (x + y)).
Proof.
  intros Hx Hy. unfold part_itv. destruct (lo_pos i && lo_nonneg j) eqn:E; [|apply inside_top].
  apply andb_prop in E. destruct E as [E1 E2]. pose proof (lo_pos_ok _ _ E1 Hx) as P. pose proof (lo_nonneg_ok _ _ E2 Hy) as N.
  assert (D : 0 < / (x + y)) by (apply Rinv_0_lt_compat; lra). assert (O : (x + y) * / (x + y) = 1) by (apply Rinv_r; lra).
  split; cbn [lo hi in_lo in_hi]; rewrite ?D2R_zero, ?D2R_one.
  - apply Rmult_lt_0_compat; assumption.
  - unfold Rdiv. destruct (lo_pos j) eqn:E3.
    + pose proof (lo_pos_ok _ _ E3 Hy). assert (0 < y * / (x + y)) by (apply Rmult_lt_0_compat; lra). lra.
    + assert (0 <= y * / (x + y)) by (apply Rmult_le_pos; lra). lra.
Qed.
Lemma quad_itv_ok c k x : inside (quad_itv c k) (x * (Q2R c + Q2R k * x)).
Proof.
  unfold quad_itv. destruct (Qle_bool k 0) eqn:K; [apply inside_top|]. apply Qle_bool_Rf in K. rewrite Q2R_0 in K.
  split; cbn [lo hi in_lo in_hi]; [|exact I]. eapply Rle_trans; [apply q_dn_le|].
  assert (N : ~ ((4#1) * k == 0)%Q).
  { intros N. apply Qeq_eqR in N. rewrite Q2R_mult, Q2R_0 in N. assert (Q2R (4#1) = 4) by (unfold Q2R; cbn; lra). rewrite H in N. lra. }
  rewrite (Q2R_div _ _ N), Q2R_opp, !Q2R_mult. replace (Q2R (4#1)) with 4 by (unfold Q2R; cbn; lra).
  set (C := Q2R c). set (k' := Q2R k) in *. apply Rminus_le.
  replace (- (C * C) / (4 * k') - x * (C + k' * x)) with (- ((2 * k' * x + C) * (2 * k' * x + C) * / (4 * k'))) by (field; lra).
  assert (0 <= (2 * k' * x + C) * (2 * k' * x + C)) by apply Rle_0_sqr.
  assert (0 < / (4 * k')) by (apply Rinv_0_lt_compat; lra).
  assert (0 <= (2 * k' * x + C) * (2 * k' * x + C) * / (4 * k')) by (apply Rmult_le_pos; lra). lra.
Qed.
Lemma meet_a_ok v i a : (forall x, v = Some (VR x) -> inside i x) -> good v a -> good v (meet_a i a).
Proof.
  intros H G. destruct a as [j d|t d|]; cbn [meet_a]; try exact G. destruct v as [[x|c]|]; cbn [good] in *; try exact G.
  apply meet_ok; [exact G|apply H; reflexivity].
Qed.

Section Sound.
Variable I : interp.
Hypothesis HI : ops_ok I.
Variable b : list R.
Hypothesis Hb : headed b.
Variable sg : list sort.
Hypothesis Hsg : Forall2 sat_sort sg b.

Section Expr.
Variable rho : Semantics.env.
Variable env : aenv.
Variable defs : program.
Hypothesis Henv : forall x, fine b (rho x) (alook env x).
Hypothesis Hdefs : forall x e, dlook defs x = Some e -> rho x = eval I rho e.
Notation ev := (eval I rho).
Notation ok e := (fine b (ev e)).

Lemma quad_ok a c x y : ev a = Some (VR x) -> ev c = Some (VR y) -> inside (quad a c) (x * y).
Proof.
  intros Ea Ec. unfold quad. destruct c; try apply inside_top. destruct c1; try apply inside_top.
  cbn [eval] in Ec.
  assert (G : forall e, eeqb a e = true -> ev e = Some (VR x)) by (intros e Q; apply eeqb_eq in Q; subst e; exact Ea).
  assert (D : inside (if eeqb a c2 then quad_itv q 1 else top) (x * y)).
  { destruct (eeqb a c2) eqn:Q; [|apply inside_top]. rewrite (G _ Q) in Ec. cbn [lift2] in Ec. injection Ec as <-.
    replace (Q2R q + x) with (Q2R q + Q2R 1 * x) by (rewrite Q2R_1; ring). apply quad_itv_ok. }
  destruct c2; try exact D. destruct c2_1; try exact D. clear D.
  destruct (eeqb a c2_2) eqn:Q; [|apply inside_top]. cbn [eval] in Ec. rewrite (G _ Q) in Ec. cbn [lift2] in Ec. injection Ec as <-. apply quad_itv_ok.
Qed.

Lemma formed2 op (f : R -> R -> option R) v w a c :
  (forall g h k x y z, op g h = Some k -> form_val b g x -> form_val b h y -> f x y = Some z -> form_val b k z) ->
  fine b v a -> fine b w c -> formed b (lift2 f v w) (f2 op a c).
Proof.
  intros H [_ Ha] [_ Hc]. unfold formed. destruct (lift2 f v w) as [[x|]|] eqn:E; try exact Logic.I.
  unfold f2. destruct (real2 _ _ _ _ E) as (y & z & -> & -> & Ef). destruct (snd a) as [g|]; [|exact Logic.I]. destruct (snd c) as [h|]; [|exact Logic.I].
  destruct (op g h) as [k|] eqn:Eo; [|exact Logic.I]. exact (H _ _ _ _ _ _ Eo Ha Hc Ef).
Qed.
Lemma real_cond v : forall c, lift1 Some v <> Some (VB c). Proof. intros c. apply lift1_real. Qed.
Lemma good_only v a : good v a -> good (lift1 Some v) (only_real a).
Proof. destruct a as [i d|t d|]; cbn [only_real]; intros G; try (apply good_top, real_cond). destruct v as [[x|]|]; cbn in *; try exact G; contradiction. Qed.
Lemma ajoin_l v a c d : good v (and_d d (only_real a)) -> good v (ajoin (and_d d (only_real a)) (and_d d (only_real c))).
Proof.
  destruct a as [i d1|t d1|], c as [j d2|t2 d2|]; cbn [only_real and_d ajoin good]; destruct v as [[x|]|]; intros G; try exact G; try apply join_l, G; subst; try (rewrite G); try apply andb_false_l; try reflexivity.
Qed.
Lemma ajoin_r v a c d : good v (and_d d (only_real c)) -> good v (ajoin (and_d d (only_real a)) (and_d d (only_real c))).
Proof.
  destruct a as [i d1|t d1|], c as [j d2|t2 d2|]; cbn [only_real and_d ajoin good]; destruct v as [[x|]|]; intros G; try exact G; try apply join_r, G; subst; try (rewrite G); try apply andb_false_r; try reflexivity.
Qed.
Lemma ajoin_none a c : good None (ajoin (and_d false (only_real a)) (and_d false (only_real c))).
Proof. destruct a as [i d1|t d1|], c as [j d2|t2 d2|]; reflexivity. Qed.
Lemma abool2_ok f v w a c : good v a -> good w c ->
  good (match v, w with Some (VB x), Some (VB y) => Some (VB (f x y)) | _, _ => None end) (abool2 f a c).
Proof.
  intros Ga Gc. set (r := match v with Some (VB x) => _ | _ => None end).
  assert (W : forall d, (r = None -> d = false) -> good r (AB None d)).
  { intros d Hd. subst r. destruct v as [[|]|]; cbn [good]; try (apply Hd; reflexivity). destruct w as [[|]|]; cbn [good]; try (apply Hd; reflexivity). intros c' Hc. discriminate. }
  assert (N : forall t d t' d', good v (AB t d) -> good w (AB t' d') -> r = None -> d && d' = false).
  { intros t d t' d' G H E. subst r. destruct v as [[|]|]; cbn [good] in G; try contradiction; [|subst; reflexivity].
    destruct w as [[|]|]; cbn [good] in H; try contradiction; [discriminate|subst; apply andb_false_r]. }
  destruct a as [i d|t d|], c as [j d'|t' d'|]; cbn [abool2]; try (destruct t as [t|]; apply W; reflexivity); try (apply W; reflexivity).
  destruct t as [t|]; [|apply W; intros E; eapply N; eassumption].
  destruct t' as [t'|]; [|apply W; intros E; eapply N; eassumption].
  pose proof (N _ _ _ _ Ga Gc) as Nr. subst r. destruct v as [[|p]|]; cbn [good] in *; try contradiction; [|apply Nr; reflexivity].
  destruct w as [[|q]|]; cbn [good] in *; try contradiction; [|apply Nr; reflexivity].
  intros z Hz. injection Hz as <-. rewrite (Ga _ eq_refl), (Gc _ eq_refl). reflexivity.
Qed.

(** Induction on expressions; in a quotient the claim is also available for the summands of the
    denominator. *)
Lemma expr_ind2 (P : expr -> Prop) :
  (forall q, P (ENum q)) -> P EPi -> (forall x, P (EVar x)) -> (forall a, P a -> P (ENeg a)) ->
  (forall a c, P a -> P c -> P (EAdd a c)) -> (forall a c, P a -> P c -> P (ESub a c)) -> (forall a c, P a -> P c -> P (EMul a c)) ->
  (forall a c, P a -> P c -> (forall x y, c = EAdd x y -> P x /\ P y) -> P (EDiv a c)) ->
  (forall a c, P a -> P c -> P (EPow a c)) -> (forall o a c, P a -> P c -> P (ECmp o a c)) ->
  (forall a c, P a -> P c -> P (EOr a c)) -> (forall a c, P a -> P c -> P (EAnd a c)) ->
  (forall a c d, P a -> P c -> P d -> P (ECond a c d)) -> (forall f a, P a -> P (EFn1 f a)) ->
  (forall f a c, P a -> P c -> P (EFn2 f a c)) -> (forall f a c d, P a -> P c -> P d -> P (EFn3 f a c d)) ->
  forall e, P e.
Proof.
  intros H1 H2 H3 H4 H5 H6 H7 H8 H9 H10 H11 H12 H13 H14 H15 H16 e.
  enough (G : P e /\ forall x y, e = EAdd x y -> P x /\ P y) by apply G.
  induction e; repeat match goal with H : _ /\ _ |- _ => destruct H end; (split; [|intros x' y' E; try discriminate E]); auto.
  injection E as <- <-. auto.
Qed.

Theorem aev_ok n : forall e fs, facts_ok I rho fs -> ok e (aev sg env defs n fs e).
Proof.
  induction n as [n IHn] using lt_wf_ind.
  assert (IH : forall m, (m < n)%nat -> forall e fs, facts_ok I rho fs -> ok e (aev sg env defs m fs e)) by (intros m Hm; apply IHn, Hm).
  clear IHn. intros e. induction e as [q| |x|e IHe|e1 e2 IHe1 IHe2|e1 e2 IHe1 IHe2|e1 e2 IHe1 IHe2|e1 e2 IHe1 IHe2 IHs|e1 e2 IHe1 IHe2|o e1 e2 IHe1 IHe2|e1 e2 IHe1 IHe2|e1 e2 IHe1 IHe2|e1 e2 e3 IHe1 IHe2 IHe3|f e IHe|f e1 e2 IHe1 IHe2|f e1 e2 e3 IHe1 IHe2 IHe3] using expr_ind2; intros fs F.
  - (* ENum *) replace (aev sg env defs n fs (ENum q)) with (AR (of_Q q) true, Some ([q], [1%Q])) by (destruct n; reflexivity).
    split; cbn [fst snd eval good formed]; [apply of_Q_ok|]. split; cbn [fst snd]; rewrite (lone b Hb); [lra|].
    destruct Hb as [t ->]. cbn [lval]. destruct t; cbn [lval]; field.
  - replace (aev sg env defs n fs EPi) with (AR pi_itv true, @None lfrac) by (destruct n; reflexivity).
    split; cbn [fst snd eval good formed]; [apply pi_itv_ok|exact Logic.I].
  - (* EVar *)
    pose proof (Henv x) as Hx. destruct n as [|n']; [destruct fs; exact Hx|]. cbn [aev].
    destruct fs as [|f0 fs0]; [exact Hx|]. set (fs := f0 :: fs0) in *.
    assert (K : forall i d, good (rho x) (AR i d) -> good (rho x) (AR (known fs (EVar x) i) d)).
    { intros i d G. destruct (rho x) as [[r|]|] eqn:E; cbn [good] in *; try exact G. exact (known_ok I rho fs (EVar x) r F E i G). }
    destruct (alook env x) as [[i d|t d|] f] eqn:A; cbn [fst snd].
    + destruct (dlook defs x) as [e'|] eqn:D.
      * pose proof (IH n' ltac:(lia) e' fs F) as [G' _]. rewrite <- (Hdefs _ _ D) in G'. destruct Hx as [G Hf]. cbn [fst snd] in *.
        destruct (aev sg env defs n' fs e') as [[j d'|t' d'|] f'] eqn:R; cbn [fst] in G'; split; cbn [fst snd]; try exact Hf; try (apply K, G).
        apply K. destruct (rho x) as [[r|]|]; cbn [good] in *; [apply meet_ok; assumption|exact G|subst; reflexivity].
      * destruct Hx as [G Hf]. split; cbn [fst snd]; [apply K, G|exact Hf].
    + destruct (dlook defs x) as [e'|] eqn:D; [|exact Hx].
      pose proof (IH n' ltac:(lia) e' fs F) as [G' _]. rewrite <- (Hdefs _ _ D) in G'.
      destruct (aev sg env defs n' fs e') as [[j d'|t' d'|] f'] eqn:R; try exact Hx. split; [exact G'|].
      cbn [snd formed]. destruct (eval I rho (EVar x)) as [[|]|]; exact Logic.I.
    + destruct (dlook defs x) as [e'|] eqn:D; [|exact Hx].
      pose proof (IH n' ltac:(lia) e' fs F) as [G' _]. rewrite <- (Hdefs _ _ D) in G'.
      destruct (aev sg env defs n' fs e') as [[j d'|t' d'|] f'] eqn:R; try exact Hx. split; [exact G'|].
      cbn [snd formed]. destruct (eval I rho (EVar x)) as [[|]|]; exact Logic.I.
  - (* ENeg *)
    specialize (IHe fs F). replace (aev sg env defs n fs (ENeg e)) with
      (let v := aev sg env defs n fs e in refine sg fs (ENeg e) (lift_a1 (fun i => Some (ineg i)) (fst v)) (option_map fneg (snd v))) by (destruct n; reflexivity).
    cbv zeta. apply refine_ok; try assumption.
    + cbn [eval]. apply lift_a1_ok; [|apply IHe]. intros i j x H Hx. apply Some_inj in H. subst j. eexists. split; [reflexivity|apply ineg_ok, Hx].
    + cbn [eval]. destruct IHe as [_ Hf]. unfold formed. destruct (ev e) as [[x|]|]; cbn [lift1]; try exact Logic.I.
      destruct (snd _) as [f|]; cbn [option_map]; [|exact Logic.I]. apply fneg_ok; assumption.
  - (* EAdd *)
    specialize (IHe1 fs F). specialize (IHe2 fs F). replace (aev sg env defs n fs (EAdd e1 e2)) with
      (let v := aev sg env defs n fs e1 in let w := aev sg env defs n fs e2 in
       refine sg fs (EAdd e1 e2) (meet_a (pw_sum sg env defs e1 e2) (lift_a2 (fun i j => Some (iadd i j)) (fst v) (fst w))) (f2 fadd v w)) by (destruct n; reflexivity).
    cbv zeta. apply refine_ok; try assumption; cbn [eval].
    + apply meet_a_ok; [intros z Hz; eapply pw_sum_ok; eassumption|]. apply lift_a2_ok; [|apply IHe1|apply IHe2]. intros i j k x y H Hx Hy. apply Some_inj in H. subst k. eexists. split; [reflexivity|apply iadd_ok; assumption].
    + apply formed2; try assumption. intros g h k x y z Ho Hx Hy Hz. apply Some_inj in Hz. subst z. eapply fadd_ok; eassumption.
  - (* ESub *)
    specialize (IHe1 fs F). specialize (IHe2 fs F). replace (aev sg env defs n fs (ESub e1 e2)) with
      (let v := aev sg env defs n fs e1 in let w := aev sg env defs n fs e2 in
       refine sg fs (ESub e1 e2) (meet_a (spin_sum env defs e1 e2) (lift_a2 (fun i j => Some (isub i j)) (fst v) (fst w))) (f2 (fun f g => fadd f (fneg g)) v w)) by (destruct n; reflexivity).
    cbv zeta. apply refine_ok; try assumption; cbn [eval].
    + apply meet_a_ok; [intros z Hz; eapply spin_sum_ok; eassumption|]. apply lift_a2_ok; [|apply IHe1|apply IHe2]. intros i j k x y H Hx Hy. apply Some_inj in H. subst k. eexists. split; [reflexivity|apply isub_ok; assumption].
    + apply formed2; try assumption. intros g h k x y z Ho Hx Hy Hz. apply Some_inj in Hz. subst z.
      replace (x - y) with (x + - y) by ring. eapply fadd_ok; try eassumption. apply fneg_ok; assumption.
  - (* EMul *)
    specialize (IHe1 fs F). specialize (IHe2 fs F). replace (aev sg env defs n fs (EMul e1 e2)) with
      (let v := aev sg env defs n fs e1 in let w := aev sg env defs n fs e2 in
       refine sg fs (EMul e1 e2) (meet_a (quad e1 e2) (lift_a2 (fun i j => Some (imul i j)) (fst v) (fst w))) (f2 fmul v w)) by (destruct n; reflexivity).
    cbv zeta. apply refine_ok; try assumption; cbn [eval].
    + apply meet_a_ok.
      * intros z Hz. destruct (real2 _ _ _ _ Hz) as (x & y & Ex & Ey & E). injection E as <-. apply quad_ok; assumption.
      * apply lift_a2_ok; [|apply IHe1|apply IHe2]. intros i j k x y H Hx Hy. apply Some_inj in H. subst k. eexists. split; [reflexivity|apply imul_ok; assumption].
    + apply formed2; try assumption. intros g h k x y z Ho Hx Hy Hz. apply Some_inj in Hz. subst z. eapply fmul_ok; eassumption.
  - (* EDiv *)
    pose proof (IHe1 fs F) as H1. pose proof (IHe2 fs F) as H2. set (part := match e2 with
                  | EAdd x y => if eeqb e1 x then part_itv (as_itv (aev sg env defs n fs e1)) (as_itv (aev sg env defs n fs y))
                                else if eeqb e1 y then part_itv (as_itv (aev sg env defs n fs e1)) (as_itv (aev sg env defs n fs x)) else top
                  | _ => top end).
    replace (aev sg env defs n fs (EDiv e1 e2)) with
      (let v := aev sg env defs n fs e1 in let w := aev sg env defs n fs e2 in
       refine sg fs (EDiv e1 e2) (meet_a part (lift_a2 (fun i j => match iinv j with Some k => Some (imul i k) | None => None end) (fst v) (fst w)))
        (f2 (fun f g => fmul f (finv g)) v w)) by (destruct n; reflexivity).
    cbv zeta. apply refine_ok; try assumption; cbn [eval].
    + apply meet_a_ok.
      * intros z Hz. destruct (real2 _ _ _ _ Hz) as (x & y & Ex & Ey & E). unfold part.
        destruct (Req_EM_T y 0) as [Y|Y]; [discriminate|]. injection E as <-.
        clear part. destruct e2; try apply inside_top. cbn [eval] in Ey.
        destruct (real2 _ _ _ _ Ey) as (u & w & Eu & Ew & E). injection E as <-.
        destruct (IHs _ _ eq_refl) as [Hs1 Hs2]. pose proof (as_itv_ok _ _ _ _ H1 Ex) as B1.
        pose proof (as_itv_ok _ _ _ _ (Hs1 fs F) Eu) as Bu. pose proof (as_itv_ok _ _ _ _ (Hs2 fs F) Ew) as Bw.
        destruct (eeqb e1 e2_1) eqn:Q1; [|destruct (eeqb e1 e2_2) eqn:Q2; [|apply inside_top]].
        -- apply eeqb_eq in Q1. subst e2_1. rewrite Ex in Eu. injection Eu as <-. apply part_itv_ok; assumption.
        -- apply eeqb_eq in Q2. subst e2_2. rewrite Ex in Ew. injection Ew as <-. rewrite (Rplus_comm u x). apply part_itv_ok; assumption.
      * apply lift_a2_ok; [|apply H1|apply H2]. intros i j k x y H Hx Hy. destruct (iinv j) as [m|] eqn:Ei; [|discriminate]. apply Some_inj in H. subst k.
        destruct (iinv_ok _ _ _ Ei Hy) as [N M]. destruct (Req_EM_T y 0) as [Y|Y]; [contradiction|]. eexists. split; [reflexivity|apply imul_ok; assumption].
    + apply formed2; try assumption. intros g h k x y z Ho Hx Hy Hz. destruct (Req_EM_T y 0) as [Y|Y]; [discriminate|]. apply Some_inj in Hz. subst z.
      unfold Rdiv. eapply fmul_ok; try eassumption. apply finv_ok; assumption.
  - (* EPow *)
    specialize (IHe1 fs F). specialize (IHe2 fs F). replace (aev sg env defs n fs (EPow e1 e2)) with
      (let v := aev sg env defs n fs e1 in let w := aev sg env defs n fs e2 in
       refine sg fs (EPow e1 e2) (match fst v with AR i d => and_d d (apow e2 i (fst w)) | _ => AR top false end) None) by (destruct n; reflexivity).
    cbv zeta. apply refine_ok; try assumption; cbn [eval].
    + destruct IHe1 as [G1 _], IHe2 as [G2 _]. destruct (fst (aev sg env defs n fs e1)) as [i d|t d|]; try (apply good_top; intros c; apply lift2_real).
      destruct (ev e1) as [[x|]|]; cbn [good lift2] in *; [|contradiction|apply and_d_none, G1].
      pose proof (apow_ok I rho x e2 i (fst (aev sg env defs n fs e2)) G1 G2) as A. apply and_d_ok, A.
    + unfold formed. destruct (lift2 _ _ _) as [[|]|]; exact Logic.I.
  - (* ECmp *)
    specialize (IHe1 fs F). specialize (IHe2 fs F). replace (aev sg env defs n fs (ECmp o e1 e2)) with
      (match fst (aev sg env defs n fs e1), fst (aev sg env defs n fs e2) with AR i d, AR j d' => AB (acmp o i j) (d && d') | _, _ => AB None false end, @None lfrac) by (destruct n; reflexivity).
    split; cbn [fst snd eval].
    + destruct IHe1 as [G1 _], IHe2 as [G2 _].
      assert (W : good (match ev e1, ev e2 with Some (VR x), Some (VR y) => Some (VB (cmp_sem o x y)) | _, _ => None end) (AB None false)).
      { destruct (ev e1) as [[x|]|], (ev e2) as [[y|]|]; cbn [good]; try reflexivity. intros c Hc. discriminate. }
      destruct (fst (aev sg env defs n fs e1)) as [i d|t d|]; try exact W.
      destruct (fst (aev sg env defs n fs e2)) as [j d'|t' d'|]; try exact W. clear W.
      destruct (ev e1) as [[x|]|], (ev e2) as [[y|]|]; cbn [good] in *; try contradiction; subst; try apply andb_false_r; try reflexivity.
      intros c Hc. destruct o; cbn [acmp cmp_sem] in *; [eapply ile_ok|eapply ilt_ok|eapply ieq_ok]; eassumption.
    + unfold formed. destruct (match ev e1 with Some (VR _) => _ | _ => _ end) as [[|]|]; exact Logic.I.
  - (* EOr *)
    specialize (IHe1 fs F). specialize (IHe2 fs F). replace (aev sg env defs n fs (EOr e1 e2)) with
      (abool2 orb (fst (aev sg env defs n fs e1)) (fst (aev sg env defs n fs e2)), @None lfrac) by (destruct n; reflexivity).
    split; cbn [fst snd eval]; [apply abool2_ok; [apply IHe1|apply IHe2]|]. unfold formed. destruct (match ev e1 with Some (VR _) => _ | _ => _ end) as [[|]|]; exact Logic.I.
  - (* EAnd *)
    specialize (IHe1 fs F). specialize (IHe2 fs F). replace (aev sg env defs n fs (EAnd e1 e2)) with
      (abool2 andb (fst (aev sg env defs n fs e1)) (fst (aev sg env defs n fs e2)), @None lfrac) by (destruct n; reflexivity).
    split; cbn [fst snd eval]; [apply abool2_ok; [apply IHe1|apply IHe2]|]. unfold formed. destruct (match ev e1 with Some (VR _) => _ | _ => _ end) as [[|]|]; exact Logic.I.
  - (* ECond *)
    set (fa := fun b => match n with
                  | S n' => let c := match e1 with EVar x => match dlook defs x with Some e' => e' | None => e1 end | _ => e1 end in
                            assume (aev sg env defs n' fs) c b ++ fs
                  | O => fs end).
    replace (aev sg env defs n fs (ECond e1 e2 e3)) with
     (let vc := fst (aev sg env defs n fs e1) in
      let f := fun v : ainfo => and_d (adef vc) (only_real (fst v)) in
      (match vc with
       | AB (Some true) _ => f (aev sg env defs n (fa true) e2)
       | AB (Some false) _ => f (aev sg env defs n (fa false) e3)
       | AB None _ => ajoin (f (aev sg env defs n (fa true) e2)) (f (aev sg env defs n (fa false) e3))
       | _ => AR top false
       end, @None lfrac)) by (destruct n; reflexivity).
    assert (FA : forall t, ev e1 = Some (VB t) -> facts_ok I rho (fa t)).
    { intros t Et. unfold fa. destruct n as [|n']; [exact F|]. cbv zeta.
      assert (A : facts_ok I rho (assume (aev sg env defs n' fs) (match e1 with EVar x => match dlook defs x with Some e' => e' | None => e1 end | _ => e1 end) t)).
      { apply (assume_ok I rho b); [intros e; apply IH; [lia|exact F]|]. destruct e1; try exact Et. destruct (dlook defs x) as [e'|] eqn:D; [|exact Et].
        rewrite <- (Hdefs _ _ D). exact Et. }
      intros e i x Hin. apply in_app_or in Hin. destruct Hin as [Hin|Hin]; [exact (A e i x Hin)|exact (F e i x Hin)]. }
    clearbody fa. cbv zeta. specialize (IHe1 fs F). destruct IHe1 as [G1 _].
    assert (R : forall c, ev (ECond e1 e2 e3) <> Some (VB c)).
    { intros c. cbn [eval]. destruct (ev e1) as [[|[|]]|]; try discriminate; apply real_cond. }
    split; cbn [fst snd]; [|unfold formed; destruct (ev (ECond e1 e2 e3)) as [[|]|]; exact Logic.I].
    assert (T : ev e1 = Some (VB true) -> good (lift1 Some (ev e2)) (and_d (adef (fst (aev sg env defs n fs e1))) (only_real (fst (aev sg env defs n (fa true) e2))))).
    { intros E. apply and_d_ok, good_only. apply IHe2, FA, E. }
    assert (E : ev e1 = Some (VB false) -> good (lift1 Some (ev e3)) (and_d (adef (fst (aev sg env defs n fs e1))) (only_real (fst (aev sg env defs n (fa false) e3))))).
    { intros E. apply and_d_ok, good_only. apply IHe3, FA, E. }
    destruct (fst (aev sg env defs n fs e1)) as [i d|[[|]|] d|]; try (apply good_top, R); cbn [eval good adef] in *.
    + destruct (ev e1) as [[r|t]|]; [contradiction| |apply and_d_none, G1]. rewrite (G1 _ eq_refl) in *. apply T. reflexivity.
    + destruct (ev e1) as [[r|t]|]; [contradiction| |apply and_d_none, G1]. rewrite (G1 _ eq_refl) in *. apply E. reflexivity.
    + destruct (ev e1) as [[r|[|]]|]; [contradiction| | |].
      * apply ajoin_l, T. reflexivity.
      * apply ajoin_r, E. reflexivity.
      * subst d. apply ajoin_none.
  - (* EFn1 *)
    specialize (IHe fs F). replace (aev sg env defs n fs (EFn1 f e)) with
      (refine sg fs (EFn1 f e) (lift_a1 (afn1 f) (fst (aev sg env defs n fs e))) None) by (destruct n; reflexivity).
    apply refine_ok; try assumption; cbn [eval].
    + apply lift_a1_ok; [|apply IHe]. intros i j x H Hx. exact (afn1_ok I HI _ _ _ _ H Hx).
    + unfold formed. destruct (lift1 _ _) as [[|]|]; exact Logic.I.
  - (* EFn2 *)
    specialize (IHe1 fs F). specialize (IHe2 fs F). replace (aev sg env defs n fs (EFn2 f e1 e2)) with
      (refine sg fs (EFn2 f e1 e2) (lift_a2 (fun _ _ => if beqb f "atan2" then Some top else None) (fst (aev sg env defs n fs e1)) (fst (aev sg env defs n fs e2))) None) by (destruct n; reflexivity).
    apply refine_ok; try assumption; cbn [eval].
    + apply lift_a2_ok; [|apply IHe1|apply IHe2]. intros i j k x y H Hx Hy. destruct (beqb f "atan2") eqn:E; [|discriminate]. apply beqb_eq in E. subst f.
      destruct (atan2_ok _ HI x y) as [v V]. exists v. split; [exact V|]. apply Some_inj in H. subst k. apply inside_top.
    + unfold formed. destruct (lift2 _ _ _) as [[|]|]; exact Logic.I.
  - (* EFn3 *)
    replace (aev sg env defs n fs (EFn3 f e1 e2 e3)) with (AR top false, @None lfrac) by (destruct n; reflexivity).
    split; cbn [fst snd].
    + apply good_top. intros c. cbn [eval]. destruct (ev e1) as [[|]|], (ev e2) as [[|]|], (ev e3) as [[|]|]; try discriminate. destruct (op3 _ _ _ _ _); discriminate.
    + unfold formed. destruct (ev (EFn3 f e1 e2 e3)) as [[|]|]; exact Logic.I.
Qed.
End Expr.

Lemma astep_ok rho env defs e : (forall x, fine b (rho x) (alook env x)) ->
  (forall x e, dlook defs x = Some e -> rho x = eval I rho e) -> fine b (eval I rho e) (astep sg env defs e).
Proof.
  intros H1 H2. unfold astep. assert (F : facts_ok I rho []) by (intros e' i x []).
  destruct (adef _); apply aev_ok; assumption.
Qed.

Lemma below_upd rho x v : forall e k, below k e = true -> (k <= rank x)%N -> eval I (upd rho x v) e = eval I rho e.
Proof.
  intros e k H Hk. apply eval_vars. intros y Hy.
  assert (R : (rank y < k)%N).
  { revert Hy H. induction e; cbn [vars below]; intros Hy H; rewrite ?in_app_iff in Hy;
      repeat match goal with H : _ && _ = true |- _ => apply andb_prop in H; destruct H end;
      repeat match goal with H : _ \/ _ |- _ => destruct H end; try contradiction; subst; auto.
    destruct Hy as [<-|[]]. apply N.ltb_lt, H. }
  unfold upd. destruct (beqb y x) eqn:E; [|reflexivity]. apply beqb_eq in E. subst y. lia.
Qed.

Theorem arun_ok p : forall k rho env defs,
  (forall x, fine b (rho x) (alook env x)) ->
  (forall x e, dlook defs x = Some e -> rho x = eval I rho e /\ below (rank x) e = true /\ (rank x <= k)%N) ->
  ssa k p = true -> forall x, fine b (exec I rho p x) (alook (arun sg env defs p) x).
Proof.
  induction p as [|[x e] p IH]; intros k rho env defs He Hd Hs; [exact He|]. cbn [exec arun].
  set (v := astep sg env defs e).
  assert (Hv : fine b (eval I rho e) v) by (apply astep_ok; [exact He|intros y f Hy; apply (Hd y f Hy)]).
  assert (He' : forall y, fine b (upd rho x (eval I rho e) y) (alook ((x, v) :: env) y)).
  { intros y. unfold upd. cbn [alook]. destruct (beqb y x); [exact Hv|apply He]. }
  destruct p as [|s p']; [exact He'|]. cbn [ssa] in Hs. apply andb_prop in Hs. destruct Hs as [Hs Hp]. apply andb_prop in Hs. destruct Hs as [Hk Hl].
  apply N.ltb_lt in Hk. apply (IH (rank x)); [exact He'| |exact Hp].
  intros y f. cbn [dlook]. destruct (beqb y x) eqn:E.
  - intros Hf. apply Some_inj in Hf. subst f. apply beqb_eq in E. subst y.
    rewrite (below_upd rho x _ e _ Hl) by lia. unfold upd. rewrite (proj2 (beqb_eq x x) eq_refl). split; [reflexivity|]. split; [exact Hl|lia].
  - intros Hf. destruct (Hd y f Hf) as (H1 & H2 & H3). rewrite (below_upd rho x _ f _ H2) by lia.
    unfold upd. rewrite E. split; [exact H1|]. split; [exact H2|lia].
Qed.

(** The bounds shown for the result. *)
Theorem shown_ok p rho env i : (forall x, fine b (rho x) (alook env x)) -> ssa 0 p = true ->
  shown sg env p = Some i -> exists v, result I rho p = Some v /\ inside i v.
Proof.
  intros He Hs H. unfold shown in H. pose proof (arun_ok p 0 rho env [] He ltac:(intros y f Hy; discriminate) Hs "res") as [G _].
  unfold result. destruct (fst (alook (arun sg env [] p) "res")) as [j d|t d|]; try discriminate. destruct d; [|discriminate]. apply Some_inj in H. subst j.
  destruct (exec I rho p "res"%b) as [[r|]|]; cbn [good] in G; [eauto|contradiction|discriminate].
Qed.
End Sound.
End Precision.
