(** A check for kinks, run beside the abstract interpreter (C39). *)
From Coq Require Import Reals List QArith Qreals Bool Arith NArith Lra Lia.
From Verif Require Import Bytes Syntax Parser PostProcess Src Ast Semantics Free Interval IntervalThm IntervalThm2
  Absint AbsintThm AbsintThm2 AbsintThm3 Defined Smooth.
Import ListNotations.

Section Check.
Context {prc : setting}.
Definition apart (i j : itv) : bool := bnd_lt (hi i) (lo j) || bnd_lt (hi j) (lo i).
Definition off_zero (i : itv) : bool := lo_pos i || lo_pos (ineg i).
Section Expr.
Variables (sg : list sort) (env : aenv) (defs : program) (bad : list bstr).
(** Comparisons of known linear forms with a threshold that are assumed not to be tied. *)
Variable untied : list (lfrac * bstr).
Definition bounds_of (e : expr) : itv := as_itv (aev sg env defs 0 [] e).
Definition is_untied (a b : expr) : bool :=
  match b with
  | EVar y => match dlook defs y, snd (aev sg env defs 0 [] a) with
              | None, Some f => existsb (fun u => beqb (snd u) y && leqb (fst f) (fst (fst u)) && leqb (snd f) (snd (fst u))) untied
              | _, _ => false end
  | _ => false end.
Fixpoint steady (e : expr) : bool :=
  match e with
  | ENum _ | EPi => true
  | EVar x => negb (mem x bad) && adef (fst (alook env x))
  | ENeg a => steady a
  | EAdd a b | ESub a b | EMul a b | EDiv a b | EOr a b | EAnd a b => steady a && steady b
  | EFn2 _ a b => steady a && steady b && lo_pos (bounds_of a)
  | EPow a b => steady a && steady b &&
      let i := bounds_of a in
      lo_pos i || match literal b with Some k => (0 <=? k)%Z || off_zero i | None => false end
  | ECmp _ a b => steady a && steady b && (apart (bounds_of a) (bounds_of b) || is_untied a b)
  | ECond c a b => steady c &&
      match fst (aev sg env defs 0 [] c) with
      | AB (Some true) _ => steady a | AB (Some false) _ => steady b | _ => steady a && steady b end
  | EFn1 f a => steady a && (negb (kinked f) || off_zero (bounds_of a))
  | EFn3 _ a b c => steady a && steady b && steady c
  end.
End Expr.
Fixpoint steady_run (sg : list sort) (untied : list (lfrac * bstr)) (env : aenv) (defs : program) (bad : list bstr) (p : program) : bool :=
  match p with
  | [] => negb (mem "res" bad) && match fst (alook env "res") with AR _ d => d | _ => false end
  | (x, e) :: p =>
      let v := astep sg env defs e in
      steady_run sg untied ((x, v) :: env) ((x, e) :: defs) (if steady sg env defs bad untied e && adef (fst v) then bad else x :: bad) p
  end.
End Check.
(** Half the density is compared with the density threshold. *)
Definition half_density : list (lfrac * bstr) := [(([0%Q; (1#2)%Q], [1%Q]), "p.dens_threshold"%b)].
Definition smooth_unpol {prc : setting} (d : domain) (c : compiled) : bool :=
  pars_named d && ssa 0 (c_unpol c) && steady_run (unpol_sg (d_level d)) half_density (unpol_aenv d) [] [] (c_unpol c).

(** The densities of the channels are compared with the density threshold, and 1 + zeta, 1 - zeta
    with the threshold for zeta. *)
Definition spins : list (lfrac * bstr) := [
  (([0;1], [1]), "p.dens_threshold"%b); (([0;0;1], [1]), "p.dens_threshold"%b);
  (([0;2;0], [0;1;1]), "p.zeta_threshold"%b); (([0;0;2], [0;1;1]), "p.zeta_threshold"%b)]%Q.
Definition smooth_pol {prc : setting} (d : domain) (c : compiled) : bool :=
  pars_named d && ssa 0 (c_pol c) && steady_run (pol_sg (d_level d)) spins (pol_aenv d) [] [] (c_pol c).

(** The check includes the one for definedness. *)
Lemma steady_shown {prc : setting} sg untied p : forall env defs bad, steady_run sg untied env defs bad p = true ->
  exists i, fst (alook (arun sg env defs p) "res") = AR i true.
Proof.
  induction p as [|[x e] p IH]; intros env defs bad H; cbn [steady_run arun] in *; [|exact (IH _ _ _ H)].
  apply andb_prop in H. destruct H as [_ H]. destruct (fst (alook env "res")) as [i d|t d|]; try discriminate. rewrite H. eauto.
Qed.
Lemma smooth_unpol_defined d c : smooth_unpol d c = true -> is_some (bounds_unpol d c) = true.
Proof.
  unfold smooth_unpol, bounds_unpol. intros H. apply andb_prop in H. destruct H as [E H]. rewrite E. unfold shown.
  destruct (steady_shown _ _ _ _ _ _ H) as (i & ->). reflexivity.
Qed.
Lemma smooth_pol_defined d c : smooth_pol d c = true -> is_some (bounds_pol d c) = true.
Proof.
  unfold smooth_pol, bounds_pol. intros H. apply andb_prop in H. destruct H as [E H]. rewrite E. unfold shown.
  destruct (steady_shown _ _ _ _ _ _ H) as (i & ->). reflexivity.
Qed.
(** A list of which the marked members are given the stronger check. *)
Definition marked {A} (fl : list bool) (strong weak : A -> bool) (l : list A) : bool :=
  (length fl =? length l)%nat && forallb (fun q : bool * A => if fst q then strong (snd q) else weak (snd q)) (combine fl l).
Definition picked {A} (fl : list bool) (l : list A) : list A := map snd (filter fst (combine fl l)).
Lemma marked_ok {A} fl (strong weak : A -> bool) l : (forall a, strong a = true -> weak a = true) -> marked fl strong weak l = true ->
  forallb weak l = true /\ forallb strong (picked fl l) = true.
Proof.
  intros Hs H. apply andb_prop in H. destruct H as [HL H]. apply Nat.eqb_eq in HL. revert l HL H.
  induction fl as [|b fl IH]; intros [|a l] HL H; try discriminate; [split; reflexivity|].
  cbn [combine forallb fst snd] in H. apply andb_prop in H. destruct H as [H1 H2]. injection HL as HL. destruct (IH l HL H2) as [I1 I2].
  cbn [forallb]. rewrite I1. unfold picked in *. cbn [combine filter fst]. destruct b; cbn [map forallb snd].
  - rewrite H1, (Hs a H1), I2. split; reflexivity.
  - rewrite H1. split; [reflexivity|exact I2].
Qed.

(** ** Soundness *)
Open Scope R_scope.
Section Sound.
Context {prc : setting} {pk : pi_known}.
Lemma off_zero_ok i x : off_zero i = true -> inside i x -> x <> 0.
Proof.
  intros H Hx. apply orb_prop in H. destruct H as [H|H]; [pose proof (lo_pos_ok _ _ H Hx); lra|pose proof (lo_pos_ok _ _ H (ineg_ok _ _ Hx)); lra].
Qed.
Lemma apart_ok i j x y : apart i j = true -> inside i x -> inside j y -> x <> y.
Proof.
  intros H Hx Hy. apply orb_prop in H. destruct H as [H|H]; [pose proof (bnd_lt_ok _ _ _ _ H (proj2 Hx) (proj1 Hy))|pose proof (bnd_lt_ok _ _ _ _ H (proj2 Hy) (proj1 Hx))]; lra.
Qed.
Lemma good_def v a : good v a -> adef a = true -> v <> None.
Proof. destruct a as [i d|t d|]; cbn [adef good]; intros H D E; subst; congruence. Qed.
Variable I : interp.
Hypothesis HI : ops_ok I.
Variable b : list R.
Hypothesis Hb : headed b.
Variable sg : list sort.
Hypothesis Hsg : Forall2 sat_sort sg b.
Variable untied : list (lfrac * bstr).
Variable rho0 : Semantics.env.
(** The comparisons are not tied. *)
Definition untied_ok : Prop :=
  forall u z, In u untied -> rho0 (snd u) = Some (VR z) -> lval b (fst (fst u)) / lval b (snd (fst u)) <> z.
Hypothesis Hu : untied_ok.
Section Expr.
Variables (rho : Semantics.env) (env : aenv) (defs : program) (bad : list bstr) (ok : bstr -> Prop).
Hypothesis Henv : forall x, fine b (rho x) (alook env x).
Hypothesis Hdefs : forall x e, dlook defs x = Some e -> rho x = eval I rho e.
Hypothesis Hsame : forall x, dlook defs x = None -> rho x = rho0 x.
Hypothesis Hok : forall x, mem x bad = false -> adef (fst (alook env x)) = true -> ok x.
Lemma aev_fine e : fine b (eval I rho e) (aev sg env defs 0 [] e).
Proof. apply (aev_ok I HI b Hb sg Hsg rho env defs Henv Hdefs). intros e' i x []. Qed.
Lemma bounds_ok e x : eval I rho e = Some (VR x) -> inside (bounds_of sg env defs e) x.
Proof. intros E. exact (as_itv_ok b _ _ _ (aev_fine e) E). Qed.
Lemma is_untied_ok a c x y : is_untied sg env defs untied a c = true -> eval I rho a = Some (VR x) -> eval I rho c = Some (VR y) -> x <> y.
Proof.
  unfold is_untied. destruct c as [| |z| | | | | | | | | | | | |]; try discriminate. destruct (dlook defs z) eqn:D; [discriminate|].
  pose proof (aev_fine a) as [_ F]. destruct (snd (aev sg env defs 0 [] a)) as [f|]; [|discriminate].
  intros H Ea Ec. rewrite Ea in F. cbn [formed] in F. destruct F as [N ->].
  apply existsb_exists in H. destruct H as (u & Iu & H). apply andb_prop in H. destruct H as [H H3]. apply andb_prop in H. destruct H as [H1 H2].
  apply beqb_eq in H1. subst z. rewrite (leqb_R _ _ b H2), (leqb_R _ _ b H3). refine (Hu u y Iu _).
  exact (eq_trans (eq_sym (Hsame _ D)) Ec).
Qed.
Lemma steady_ok : forall e, steady sg env defs bad untied e = true -> calm I rho ok e.
Proof.
  induction e; cbn [steady calm]; intros H;
    repeat match goal with H : _ && _ = true |- _ => apply andb_prop in H; destruct H end; auto.
  - apply Hok; [apply negb_true_iff|]; assumption.
  - split; [auto|split; [auto|]]. intros x Ex. pose proof (bounds_ok _ _ Ex) as B. apply orb_prop in H0. destruct H0 as [P|P]; [left; exact (lo_pos_ok _ _ P B)|right].
    destruct (literal e2) as [k|]; [|discriminate]. exists k. split; [reflexivity|]. apply orb_prop in P.
    destruct P as [P|P]; [right; apply Z.leb_le, P|left; exact (off_zero_ok _ _ P B)].
  - split; [auto|split; [auto|]]. intros x y Ex Ey. apply orb_prop in H0.
    destruct H0 as [P|P]; [exact (apart_ok _ _ _ _ P (bounds_ok _ _ Ex) (bounds_ok _ _ Ey))|exact (is_untied_ok _ _ _ _ P Ex Ey)].
  - split; [auto|]. pose proof (aev_fine e1) as [G _]. destruct (fst (aev sg env defs 0 [] e1)) as [i d|[t|] d|].
    + apply andb_prop in H0. destruct H0. split; auto.
    + cbn [good] in G. destruct t; (split; [intros E|intros E]; rewrite E in G; cbn [good] in G; try discriminate (G _ eq_refl); auto).
    + apply andb_prop in H0. destruct H0. split; auto.
    + apply andb_prop in H0. destruct H0. split; auto.
  - split; [auto|]. intros K E. rewrite K in H0. cbn [negb orb] in H0. exact (off_zero_ok _ _ H0 (bounds_ok _ _ E) eq_refl).
  - split; [auto|split; [auto|]]. intros x E. exact (lo_pos_ok _ _ H0 (bounds_ok _ _ E)).
Qed.
End Expr.
Theorem steady_run_ok p : forall k rho env defs bad (ok : bstr -> Prop),
  (forall x, fine b (rho x) (alook env x)) ->
  (forall x e, dlook defs x = Some e -> rho x = eval I rho e /\ below (rank x) e = true /\ (rank x <= k)%N) ->
  (forall x, dlook defs x = None -> rho x = rho0 x) ->
  (forall x, mem x bad = false -> adef (fst (alook env x)) = true -> ok x) ->
  ssa k p = true -> steady_run sg untied env defs bad p = true ->
  calm_run I rho ok p "res"%b /\ exists v, exec I rho p "res"%b = Some (VR v).
Proof.
  induction p as [|[x e] p IH]; intros k rho env defs bad ok He Hd Hs Ho Hk H.
  - cbn [steady_run calm_run exec] in *. apply andb_prop in H. destruct H as [H1 H2]. apply negb_true_iff in H1.
    pose proof (proj1 (He "res"%b)) as G. specialize (Ho _ H1). destruct (fst (alook env "res")) as [i d|t d|]; try discriminate. subst d.
    split; [apply Ho; reflexivity|]. destruct (rho "res"%b) as [[v|]|]; cbn [good] in G; [eauto|contradiction|discriminate].
  - cbn [steady_run calm_run exec] in *. set (v := astep sg env defs e) in *.
    assert (Hd' : forall y f, dlook defs y = Some f -> rho y = eval I rho f) by (intros y f Hy; apply (Hd y f Hy)).
    assert (Hv : fine b (eval I rho e) v) by (apply (astep_ok I HI b Hb sg Hsg); assumption).
    assert (He' : forall y, fine b (upd rho x (eval I rho e) y) (alook ((x, v) :: env) y)).
    { intros y. unfold upd. cbn [alook]. destruct (beqb y x); [exact Hv|apply He]. }
    set (flag := steady sg env defs bad untied e && adef (fst v)) in *.
    assert (Ho' : forall y, mem y (if flag then bad else x :: bad) = false -> adef (fst (alook ((x, v) :: env) y)) = true ->
      if beqb y x then calm I rho ok e /\ eval I rho e <> None else ok y).
    { intros y Hy Ay. cbn [alook] in Ay. destruct (beqb y x) eqn:E.
      - destruct flag eqn:F.
        + apply andb_prop in F. destruct F as [F1 F2]. split; [exact (steady_ok rho env defs bad ok He Hd' Hs Ho e F1)|exact (good_def _ _ (proj1 Hv) F2)].
        + unfold mem in Hy. cbn [existsb] in Hy. rewrite E in Hy. discriminate.
      - destruct flag; [exact (Ho y Hy Ay)|]. unfold mem in Hy. cbn [existsb] in Hy. rewrite E in Hy. exact (Ho y Hy Ay). }
    destruct p as [|s p'].
    + cbn [steady_run calm_run exec] in *. apply andb_prop in H. destruct H as [H1 H2]. apply negb_true_iff in H1.
      pose proof (proj1 (He' "res"%b)) as G. specialize (Ho' _ H1). destruct (fst (alook ((x, v) :: env) "res")) as [i d|t d|]; try discriminate. subst d.
      split; [apply Ho'; reflexivity|]. destruct (upd rho x (eval I rho e) "res"%b) as [[w|]|]; cbn [good] in G; [eauto|contradiction|discriminate].
    + cbn [ssa] in Hk. apply andb_prop in Hk. destruct Hk as [Hk Hp]. apply andb_prop in Hk. destruct Hk as [Hk Hl]. apply N.ltb_lt in Hk.
      refine (IH (rank x) _ _ _ _ _ He' _ _ Ho' Hp H).
      * intros y f. cbn [dlook]. destruct (beqb y x) eqn:E.
        -- intros Hf. injection Hf as <-. apply beqb_eq in E. subst y.
           rewrite (below_upd I rho x _ e _ Hl) by lia. unfold upd. rewrite (proj2 (beqb_eq x x) eq_refl). split; [reflexivity|]. split; [exact Hl|lia].
        -- intros Hf. destruct (Hd y f Hf) as (H1 & H2 & H3). rewrite (below_upd I rho x _ f _ H2) by lia.
           unfold upd. rewrite E. split; [exact H1|]. split; [exact H2|lia].
      * intros y. cbn [dlook]. unfold upd. destruct (beqb y x); [discriminate|apply Hs].
Qed.
End Sound.
