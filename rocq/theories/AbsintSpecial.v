(** Soundness of the special sums of Absint.v. *)
From Coq Require Import Reals ZArith NArith QArith Qreals Bool List Lra Lia.
From Verif Require Import Bytes Syntax Semantics RPow Interval IntervalThm IntervalThm2 Absint AbsintThm AbsintThm2 AbsintPW.
Import ListNotations.
Open Scope R_scope.

Section Precision.
Context {prc : setting}.

Lemma real1 (f : R -> option R) v x : lift1 f v = Some (VR x) -> exists y, v = Some (VR y) /\ f y = Some x.
Proof. unfold lift1. destruct v as [[y|]|]; try discriminate. destruct (f y) as [r|] eqn:E; [|discriminate]. intros H. injection H as <-. eauto. Qed.
Lemma real2 (f : R -> R -> option R) v w x : lift2 f v w = Some (VR x) ->
  exists y z, v = Some (VR y) /\ w = Some (VR z) /\ f y z = Some x.
Proof.
  unfold lift2. destruct v as [[y|]|]; try discriminate. destruct w as [[z|]|]; try discriminate.
  destruct (f y z) as [r|] eqn:E; [|discriminate]. intros H. injection H as <-. eauto.
Qed.
Lemma is_one_R q : is_one q = true -> Q2R q = 1.
Proof. intros H. unfold is_one in H. rewrite (Qeq_bool_R _ _ H). apply Q2R_1. Qed.

Section Special.
Variable I : interp.
Variable b : list R.
Hypothesis Hb : headed b.
Variable sg : list sort.
Hypothesis Hsg : Forall2 sat_sort sg b.
Variable rho : Semantics.env.
Variable env : aenv.
Variable defs : program.
Hypothesis Henv : forall x, fine b (rho x) (alook env x).
Hypothesis Hdefs : forall x e, dlook defs x = Some e -> rho x = eval I rho e.
Notation ev := (eval I rho).

Lemma unv_ok e : ev (unv defs e) = ev e.
Proof. destruct e; try reflexivity. cbn [unv]. destruct (dlook defs x) as [e'|] eqn:D; [|reflexivity]. symmetry. apply (Hdefs _ _ D). Qed.
Lemma stored_fine e : fine b (ev e) (stored env e).
Proof.
  destruct e; try (split; [exact Logic.I|unfold formed; cbn [stored snd]; destruct (ev _) as [[|]|]; exact Logic.I]).
  apply Henv.
Qed.
Lemma stored_ok e x : ev e = Some (VR x) -> inside (as_itv (stored env e)) x.
Proof. intros H. exact (as_itv_ok _ _ _ _ (stored_fine e) H). Qed.

(** ** Powers of forms *)
Lemma fone_ok f y : fone f = true -> form_val b f y -> y = 1.
Proof.
  unfold fone. intros H [_ ->]. apply andb_prop in H. destruct H as [A B]. rewrite (leqb_one b Hb _ A), (leqb_one b Hb _ B). field.
Qed.
Definition pform_val (f : pform) (x : R) : Prop := exists y, form_val b (fst f) y /\ x = y ^ Pos.to_nat (snd f).
Lemma pmul_ok f g h x y : pmul f g = Some h -> pform_val f x -> pform_val g y -> pform_val h (x * y).
Proof.
  unfold pmul. intros H (u & Hu & ->) (w & Hw & ->). destruct (fone (fst f)) eqn:A.
  - injection H as <-. rewrite (fone_ok _ _ A Hu), pow1. exists w. split; [exact Hw|ring].
  - destruct (fone (fst g)) eqn:B.
    + injection H as <-. rewrite (fone_ok _ _ B Hw), pow1. exists u. split; [exact Hu|ring].
    + destruct (Pos.eqb_spec (snd f) (snd g)) as [E|]; [|discriminate]. destruct (fmul (fst f) (fst g)) as [k|] eqn:M; [|discriminate].
      injection H as <-. exists (u * w). cbn [fst snd]. split; [exact (fmul_ok b Hb _ _ _ _ _ M Hu Hw)|]. rewrite <- E, Rpow_mult_distr. reflexivity.
Qed.
Lemma pinv_ok f x : pform_val f x -> x <> 0 -> pform_val (pinv f) (/ x).
Proof.
  intros (u & Hu & ->) N. exists (/ u). cbn [pinv fst snd]. assert (U : u <> 0).
  { intros ->. apply N. rewrite pow_i by lia. reflexivity. }
  split; [apply finv_ok; assumption|]. rewrite pow_inv. reflexivity.
Qed.
Lemma pypow_nat x k : pypow x (IZR (Zpos k)) = Some (x ^ Pos.to_nat k).
Proof.
  unfold pypow. assert (Z : 0 < IZR (Zpos k)) by (apply IZR_lt; lia).
  destruct (Rlt_dec 0 x) as [P|P].
  - rewrite <- (positive_nat_Z k), <- INR_IZR_INZ, Rpower_pow by exact P. reflexivity.
  - assert (IP : Int_part (IZR (Zpos k)) = Zpos k).
    { unfold Int_part. rewrite <- (tech_up (IZR (Zpos k)) (Zpos k + 1)); [lia| |]; rewrite plus_IZR; lra. }
    rewrite IP. destruct (Req_EM_T (IZR (Zpos k)) (IZR (Zpos k))) as [_|]; [|contradiction].
    destruct (Req_EM_T x 0) as [->|N].
    + destruct (Rlt_dec 0 (IZR (Zpos k))); [|contradiction]. rewrite pow_i by lia. reflexivity.
    + reflexivity.
Qed.
Lemma monom_ok n : forall e f x, monom env defs n e = Some f -> ev e = Some (VR x) -> pform_val f x.
Proof.
  induction n as [|n IH]; intros e f x H E; [discriminate|]. destruct e; cbn [monom] in H; try discriminate.
  - injection H as <-. cbn [eval] in E. injection E as <-. exists (Q2R q). cbn [fst snd]. split; [|change (Pos.to_nat 1) with 1%nat; ring].
    destruct Hb as [t Et]. split; cbn [fst snd]; rewrite (lone b Hb); [lra|]. rewrite Et. cbn [lval]. destruct t; cbn [lval]; field.
  - destruct (snd (alook env x0)) as [g|] eqn:S.
    + injection H as <-. destruct (Henv x0) as [_ F]. cbn [eval] in E. rewrite E, S in F. exists x. split; [exact F|]. cbn [snd]. change (Pos.to_nat 1) with 1%nat. ring.
    + destruct (dlook defs x0) as [e'|] eqn:D; [|discriminate]. apply (IH _ _ _ H). rewrite <- (Hdefs _ _ D). exact E.
  - destruct (monom env defs n e1) as [g|] eqn:A; [|discriminate]. destruct (monom env defs n e2) as [h|] eqn:B; [|discriminate].
    cbn [eval] in E. destruct (real2 _ _ _ _ E) as (y & z & E1 & E2 & Q). injection Q as <-. exact (pmul_ok _ _ _ _ _ H (IH _ _ _ A E1) (IH _ _ _ B E2)).
  - destruct (monom env defs n e1) as [g|] eqn:A; [|discriminate]. destruct (monom env defs n e2) as [h|] eqn:B; [|discriminate].
    cbn [eval] in E. destruct (real2 _ _ _ _ E) as (y & z & E1 & E2 & Q). destruct (Req_EM_T z 0) as [|N]; [discriminate|]. injection Q as <-.
    unfold Rdiv. exact (pmul_ok _ _ _ _ _ H (IH _ _ _ A E1) (pinv_ok _ _ (IH _ _ _ B E2) N)).
  - destruct e2; try discriminate. destruct (Qred q) as [[|k|k] [?|?|]] eqn:Eq; try discriminate.
    destruct (monom env defs n e1) as [[g j]|] eqn:A; [|discriminate]. injection H as <-. cbn [eval] in E.
    destruct (real2 _ _ _ _ E) as (y & z & E1 & E2 & Q). injection E2 as <-.
    assert (Z : Q2R q = IZR (Zpos k)) by (rewrite <- Q2R_red, Eq; unfold Q2R; cbn [Qnum Qden]; field).
    rewrite Z, pypow_nat in Q. injection Q as <-. destruct (IH _ _ _ A E1) as (u & Hu & ->). exists u. cbn [fst snd]. split; [exact Hu|].
    rewrite Pos2Nat.inj_mul, pow_mult. reflexivity.
Qed.
Lemma pow_itv_ok e x : ev e = Some (VR x) -> inside (pow_itv sg env defs e) x.
Proof.
  intros E. unfold pow_itv. destruct (monom env defs 8 e) as [[f k]|] eqn:M; [|apply inside_top].
  destruct (monom_ok _ _ _ _ M E) as (y & Hy & ->). apply ipow_pos_ok. apply (fitv_ok b sg Hsg). exact Hy.
Qed.

(** ** The spin interpolation *)
Lemma is_cbrt_ok x c v : is_cbrt defs x c = true -> ev x = Some (VR v) -> ev c = Some (VR (Rcbrt v)).
Proof.
  unfold is_cbrt. intros H E. destruct (unv defs c) eqn:U; try discriminate. destruct f; try discriminate. apply eeqb_eq in H. subst.
  rewrite <- unv_ok, U. cbn [eval]. rewrite E. reflexivity.
Qed.
Lemma four_thirds_ok x e v : four_thirds defs x e = true -> ev x = Some (VR v) -> ev e = Some (VR (p43 v)).
Proof.
  unfold four_thirds. intros H E. destruct (unv defs e) eqn:U; try discriminate. rewrite <- unv_ok, U. cbn [eval].
  apply orb_prop in H. destruct H as [H|H]; apply andb_prop in H; destruct H as [C Q]; apply eeqb_eq in Q; subst; rewrite (is_cbrt_ok _ _ _ C E), E; cbn [lift2]; unfold p43; [reflexivity|].
  do 2 f_equal. ring.
Qed.
Lemma clamped_ok u p z t v : clamped defs u = Some (p, z, t) -> ev u = Some (VR v) ->
  exists P Z, ev p = Some (VR P) /\ ev z = Some (VR Z) /\ ev t = Some (VR (p43 Z)) /\ v = clamp43 Z P.
Proof.
  unfold clamped. intros H E. destruct (unv defs u) as [| | | | | | | | | | | |c a d| | |] eqn:U; try discriminate.
  destruct (unv defs c) as [| | | | | | | | |o p' z'| | | | | |] eqn:C; try discriminate. destruct o; try discriminate.
  destruct (four_thirds defs z' a) eqn:A; [|discriminate]. destruct (four_thirds defs p' d) eqn:D; [|discriminate]. injection H as -> -> ->.
  rewrite <- unv_ok, U in E. cbn [eval] in E. rewrite <- (unv_ok c), C in E. cbn [eval] in E.
  destruct (ev p) as [[P|]|] eqn:Ep; try discriminate. destruct (ev z) as [[Z|]|] eqn:Ez; try discriminate.
  exists P, Z. split; [reflexivity|]. split; [reflexivity|]. split; [exact (four_thirds_ok _ _ _ A Ez)|]. unfold clamp43. cbn [cmp_sem] in E.
  destruct (Rleb P Z); [rewrite (four_thirds_ok _ _ _ A Ez) in E|rewrite (four_thirds_ok _ _ _ D Ep) in E]; cbn in E; congruence.
Qed.
Lemma sum_two_ok p m x y : sum_two env defs p m = true -> ev p = Some (VR x) -> ev m = Some (VR y) -> x + y = 2.
Proof.
  unfold sum_two. intros H Ep Em.
  assert (G : match unv defs p, unv defs m with
            | EAdd (ENum o) z, ESub (ENum o') z' => is_one o && is_one o' && eeqb z z'
            | _, _ => false end = true -> x + y = 2).
  { clear H. intros H. destruct (unv defs p) as [| | | |o1 z1| | | | | | | | | | |] eqn:Up; try discriminate. destruct o1 as [o| | | | | | | | | | | | | | |]; try discriminate.
    destruct (unv defs m) as [| | | | |o2 z2| | | | | | | | | |] eqn:Um; try discriminate. destruct o2 as [o'| | | | | | | | | | | | | | |]; try discriminate.
    apply andb_prop in H. destruct H as [H Q]. apply andb_prop in H. destruct H as [O O']. apply eeqb_eq in Q. subst z2.
    rewrite <- unv_ok, Up in Ep. rewrite <- unv_ok, Um in Em. cbn [eval] in Ep, Em. destruct (ev z1) as [[z|]|]; try discriminate. cbn [lift2] in Ep, Em.
    injection Ep as <-. injection Em as <-. rewrite (is_one_R _ O), (is_one_R _ O'). ring. }
  pose proof (stored_fine p) as [_ Fp]. pose proof (stored_fine m) as [_ Fm]. rewrite Ep in Fp. rewrite Em in Fm.
  destruct (snd (stored env p)) as [f|]; [|exact (G H)]. destruct (snd (stored env m)) as [g|]; [|exact (G H)]. clear G.
  cbn [formed] in Fp, Fm. apply andb_prop in H. destruct H as [D N]. destruct Fp as [Np ->], Fm as [Nm ->].
  rewrite <- (leqb_R _ _ b D). apply (leqb_R _ _ b) in N. rewrite ladd_R, lscale_R in N.
  replace (Q2R 2) with 2 in N by (unfold Q2R; cbn; lra).
  replace (lval b (fst f) / lval b (snd f) + lval b (fst g) / lval b (snd f)) with ((lval b (fst f) + lval b (fst g)) / lval b (snd f)) by (field; exact Np).
  rewrite N. field. exact Np.
Qed.
Lemma spin_sum_ok a c x : ev (ESub a c) = Some (VR x) -> inside (spin_sum env defs a c) x.
Proof.
  intros E. unfold spin_sum. destruct a as [| | | |u v| | | | | | | | | | |]; try apply inside_top.
  destruct c as [q| | | | | | | | | | | | | | |]; try apply inside_top. destruct (Qeq_bool q 2) eqn:Q; [|apply inside_top].
  destruct (clamped defs u) as [[[p z] t]|] eqn:Cu; [|apply inside_top]. destruct (clamped defs v) as [[[m z'] t']|] eqn:Cv; [|apply inside_top].
  destruct (_ && _) eqn:H; [|apply inside_top]. repeat (apply andb_prop in H; destruct H as [H ?]).
  cbn [eval] in E. destruct (real2 _ _ _ _ E) as (s & w & E1 & E2 & E3). clear E. injection E2 as <-. injection E3 as <-.
  destruct (real2 _ _ _ _ E1) as (x & y & Eu & Ev & E3). clear E1. injection E3 as <-.
  destruct (clamped_ok _ _ _ _ _ Cu Eu) as (P & Z & Ep & Ez & Et & ->). destruct (clamped_ok _ _ _ _ _ Cv Ev) as (M & Z' & Em & Ez' & _ & ->).
  apply eeqb_eq in H. subst z'. rewrite Ez in Ez'. injection Ez' as <-.
  match goal with H : sum_two _ _ _ _ = true |- _ => pose proof (sum_two_ok _ _ _ _ H Ep Em) as S end.
  match goal with H : lo_nonneg (as_itv (stored env p)) = true |- _ => pose proof (lo_nonneg_ok _ _ H (stored_ok _ _ Ep)) as P0 end.
  match goal with H : lo_nonneg (as_itv (stored env m)) = true |- _ => pose proof (lo_nonneg_ok _ _ H (stored_ok _ _ Em)) as M0 end.
  match goal with H : lo_pos (as_itv (stored env z)) = true |- _ => pose proof (lo_pos_ok _ _ H (stored_ok _ _ Ez)) as Z0 end.
  assert (Z1 : Z < 1).
  { match goal with H : bnd_lt _ _ = true |- _ => eapply (bnd_lt_ok _ _ _ _ H) end; [apply (stored_ok _ _ Ez)|]. cbn [in_lo]. unfold D2R, one. cbn. lra. }
  destruct (clamp_sum Z P M (conj Z0 Z1) P0 M0 S) as [L U]. rewrite (Qeq_bool_R _ _ Q). replace (Q2R 2) with 2 by (unfold Q2R; cbn; lra).
  assert (T2 : D2R two = 2) by (unfold D2R, two; cbn; lra).
  assert (K2 : inside (icbrt (const two)) (Rcbrt 2)) by (rewrite <- T2; apply icbrt_ok, const_ok).
  revert K2. generalize (icbrt (const two)). intros K K2.
  split; cbn [lo hi].
  - cbn [in_lo]. unfold D2R, zero. cbn. lra.
  - assert (G : inside (iadd (isub (imul (const two) K) (const two)) (as_itv (stored env t))) (2 * Rcbrt 2 - 2 + p43 Z)).
    { apply iadd_ok; [|apply stored_ok, Et]. apply isub_ok; [|rewrite <- T2; apply const_ok]. apply imul_ok; [rewrite <- T2; apply const_ok|exact K2]. }
    destruct G as [_ G]. apply (weakly_hi _ _ _ G). lra.
Qed.

(** ** The Perdew-Wang sum *)
Definition pw_R (f : pw) (x w : R) : R :=
  fit (Q2R (pw_A f)) (Q2R (pw_a f)) (Q2R (pw_k f)) (den (Q2R (pw_c1 f)) (Q2R (pw_c2 f)) (Q2R (pw_c3 f)) (Q2R (pw_c4 f)) x w) x.
Lemma pypow_32 x w : 0 < x -> pypow x (3/2) = Some w -> w = x * sqrt x.
Proof.
  intros P. unfold pypow. destruct (Rlt_dec 0 x) as [_|]; [|contradiction]. intros H. injection H as <-.
  replace (3/2) with (1 + /2) by lra. rewrite Rpower_plus, Rpower_1, Rpower_sqrt by exact P. reflexivity.
Qed.
Lemma pw_fit_ok A l g f vl vg : pw_fit defs A l g = Some f -> ev l = Some (VR vl) -> ev g = Some (VR vg) ->
  pw_A f = A /\ exists x w, ev (pw_x f) = Some (VR x) /\ ev (pw_w f) = Some (VR w) /\ (0 < x -> 0 < w -> Q2R A * vl * vg = pw_R f x w).
Proof.
  unfold pw_fit. intros H El Eg. rewrite <- unv_ok in El. rewrite <- unv_ok in Eg.
  destruct (unv defs l) as [| | | |o m| | | | | | | | | | |]; try discriminate. destruct o as [o| | | | | | | | | | | | | | |]; try discriminate.
  destruct m as [| | | | | |a x0| | | | | | | | |]; try discriminate. destruct a as [a| | | | | | | | | | | | | | |]; try discriminate.
  destruct (unv defs g) as [| | | | | | | | | | | | |fn h| |]; try discriminate. destruct fn; try discriminate.
  destruct h as [| | | |o' m| | | | | | | | | | |]; try discriminate. destruct o' as [o'| | | | | | | | | | | | | | |]; try discriminate.
  destruct m as [| | | | | | |k d| | | | | | | |]; try discriminate. destruct k as [k| | | | | | | | | | | | | | |]; try discriminate.
  cbn [eval] in El, Eg. rewrite <- (unv_ok d) in Eg.
  destruct (unv defs d) as [| | | |d' u4| | | | | | | | | | |]; try discriminate. destruct d' as [| | | |d' u3| | | | | | | | | | |]; try discriminate.
  destruct d' as [| | | |u1 u2| | | | | | | | | | |]; try discriminate. cbn [eval] in Eg. rewrite <- (unv_ok u1), <- (unv_ok u2), <- (unv_ok u3), <- (unv_ok u4) in Eg.
  destruct (unv defs u1) as [| | | | | |c1 s| | | | | | | | |]; try discriminate. destruct c1 as [c1| | | | | | | | | | | | | | |]; try discriminate.
  destruct (unv defs u2) as [| | | | | |c2 x| | | | | | | | |]; try discriminate. destruct c2 as [c2| | | | | | | | | | | | | | |]; try discriminate.
  destruct (unv defs u3) as [| | | | | |c3 t| | | | | | | | |]; try discriminate. destruct c3 as [c3| | | | | | | | | | | | | | |]; try discriminate.
  destruct (unv defs u4) as [| | | | | |c4 w| | | | | | | | |]; try discriminate. destruct c4 as [c4| | | | | | | | | | | | | | |]; try discriminate.
  cbn [eval] in Eg. rewrite <- (unv_ok s), <- (unv_ok t) in Eg.
  destruct (_ && _) eqn:C; [|discriminate]. injection H as <-. cbn [pw_A pw_x pw_w]. split; [reflexivity|].
  apply andb_prop in C. destruct C as [C Ct]. apply andb_prop in C. destruct C as [C Cs]. apply andb_prop in C. destruct C as [C Cx].
  apply andb_prop in C. destruct C as [O O']. apply eeqb_eq in Cx. subst x0.
  destruct (unv defs s) as [| | | | | | | | | | | | |fs ys| |]; try discriminate. destruct fs; try discriminate. apply eeqb_eq in Cs. subst ys.
  destruct (unv defs t) as [| | | | | | | |yt qt| | | | | | |]; try discriminate. destruct qt as [qt| | | | | | | | | | | | | | |]; try discriminate.
  apply andb_prop in Ct. destruct Ct as [Ct Q]. apply eeqb_eq in Ct. subst yt. apply Qeq_bool_R in Q. replace (Q2R (3#2)) with (3/2) in Q by (unfold Q2R; cbn; lra).
  cbn [eval] in Eg. rewrite Q in Eg. destruct (ev x) as [[X|]|]; try discriminate. cbn [lift2] in El. injection El as <-.
  destruct (ev w) as [[W|]|]; [|cbn [lift1 lift2] in Eg; exfalso; revert Eg; repeat match goal with |- context [lift2 ?f ?u _] => destruct u as [[?|?]|]; cbn [lift1 lift2]; try discriminate end..].
  exists X, W. split; [reflexivity|]. split; [reflexivity|]. intros PX PW.
  apply real1 in Eg. destruct Eg as (y & Ey & El). cbn [fn1_sem] in El. destruct (Rlt_dec 0 y) as [Py|]; [|discriminate]. injection El as <-.
  apply real2 in Ey. destruct Ey as (y1 & y2 & E1 & E2 & E3). injection E1 as <-. injection E3 as <-.
  apply real2 in E2. destruct E2 as (k' & D & E1 & E2 & E3). injection E1 as <-. destruct (Req_EM_T D 0); [discriminate|]. injection E3 as <-.
  apply real2 in E2. destruct E2 as (v1 & v4 & E2 & E4 & E3). injection E3 as <-. injection E4 as <-.
  apply real2 in E2. destruct E2 as (v2 & v3 & E2 & E4 & E3). injection E3 as <-.
  apply real2 in E2. destruct E2 as (w1 & w2 & E2 & E5 & E3). injection E3 as <-. injection E5 as <-.
  apply real2 in E2. destruct E2 as (r1 & r2 & E1 & E2 & E3). injection E1 as <-. injection E3 as <-.
  cbn [lift1] in E2. destruct (fn1_sem I FSqrt X) as [sx|] eqn:Sx; [|discriminate]. injection E2 as <-. cbn [fn1_sem] in Sx. destruct (Rle_dec 0 X); [|discriminate]. injection Sx as <-.
  apply real2 in E4. destruct E4 as (r1 & r2 & E1 & E2 & E3). injection E1 as <-. injection E3 as <-.
  apply real2 in E2. destruct E2 as (r3 & r4 & E1 & E2 & E3). injection E1 as <-. injection E2 as <-. apply (pypow_32 _ _ PX) in E3. subst r2.
  unfold pw_R, fit, den. cbn [pw_A pw_a pw_k pw_c1 pw_c2 pw_c3 pw_c4]. rewrite (is_one_R _ O), (is_one_R _ O'). reflexivity.
Qed.

Lemma pw_term_ok e f v : pw_term defs e = Some f -> ev e = Some (VR v) ->
  exists x w, ev (pw_x f) = Some (VR x) /\ ev (pw_w f) = Some (VR w) /\ (0 < x -> 0 < w -> v = pw_R f x w).
Proof.
  unfold pw_term. intros H E. rewrite <- unv_ok in E. destruct (unv defs e) as [| | | | | |m g| | | | | | | | |]; try discriminate.
  destruct m as [| | | | | |A l| | | | | | | | |]; try discriminate. destruct A as [A| | | | | | | | | | | | | | |]; try discriminate.
  cbn [eval] in E. apply real2 in E. destruct E as (y & vg & E & Eg & Q). injection Q as <-. apply real2 in E. destruct E as (A' & vl & EA & El & Q). injection EA as <-. injection Q as <-.
  apply (pw_fit_ok _ _ _ _ _ _ H El Eg).
Qed.
Lemma pw_neg_ok e f v : pw_neg defs e = Some f -> ev e = Some (VR v) ->
  exists x w, ev (pw_x f) = Some (VR x) /\ ev (pw_w f) = Some (VR w) /\ (0 < x -> 0 < w -> v = - pw_R f x w).
Proof.
  unfold pw_neg. intros H E. rewrite <- unv_ok in E. destruct (unv defs e) as [| | | | | |m g| | | | | | | | |]; try discriminate.
  destruct m as [| | | | | |A l| | | | | | | | |]; try discriminate. destruct A as [| | |A| | | | | | | | | | | |]; try discriminate. destruct A as [A| | | | | | | | | | | | | | |]; try discriminate.
  cbn [eval lift1] in E. apply real2 in E. destruct E as (y & vg & E & Eg & Q). injection Q as <-. apply real2 in E. destruct E as (A' & vl & EA & El & Q). injection EA as <-. injection Q as <-.
  destruct (pw_fit_ok _ _ _ _ _ _ H El Eg) as (_ & x & w & Ex & Ew & P). exists x, w. split; [exact Ex|]. split; [exact Ew|].
  intros Px Pw. rewrite <- (P Px Pw). ring.
Qed.
Lemma qpos_R q : qpos q = true -> 0 < Q2R q.
Proof. unfold qpos. intros H. apply negb_true_iff in H. apply Qle_bool_Rf in H. rewrite Q2R_0 in H. exact H. Qed.
Ltac splitb := repeat match goal with H : _ && _ = true |- _ => apply andb_prop in H; destruct H end.
Lemma pw_pos_ok f : pw_pos f = true ->
  0 < Q2R (pw_A f) /\ 0 < Q2R (pw_a f) /\ 0 < Q2R (pw_k f) /\ 0 < Q2R (pw_c1 f) /\ 0 < Q2R (pw_c2 f) /\ 0 < Q2R (pw_c3 f) /\ 0 < Q2R (pw_c4 f).
Proof. unfold pw_pos. intros H. splitb. repeat split; apply qpos_R; assumption. Qed.
Ltac q2r := repeat match goal with H : Qle_bool _ _ = true |- _ => apply Qle_bool_R in H; repeat first [rewrite Q2R_plus in H | rewrite Q2R_minus in H | rewrite Q2R_mult in H] end.
Lemma Q2R_87 : Q2R (87#100) = 87/100. Proof. unfold Q2R. cbn. lra. Qed.
Lemma Q2R_13 : Q2R (13#100) = 13/100. Proof. unfold Q2R. cbn. lra. Qed.
Lemma Q2R_9 : Q2R (9#10) = 9/10. Proof. unfold Q2R. cbn. lra. Qed.
Lemma Q2R_14 : Q2R 14 = 14. Proof. unfold Q2R. cbn. lra. Qed.
Lemma Q2R_3 : Q2R 3 = 3. Proof. unfold Q2R. cbn. lra. Qed.
Lemma pw_le_ok f0 f2 x w : pw_pos f0 = true -> pw_pos f2 = true -> pw_le f0 f2 = true -> 0 < x -> 0 < w -> pw_R f2 x w <= 87/100 * pw_R f0 x w.
Proof.
  intros P0 P2 H Px Pw. destruct (pw_pos_ok _ P0) as (A0 & a0 & k0 & c01 & c02 & c03 & c04). destruct (pw_pos_ok _ P2) as (A2 & a2 & k2 & c21 & c22 & c23 & c24).
  unfold pw_le in H. splitb. q2r. rewrite ?Q2R_87, ?Q2R_14, ?Q2R_1 in *.
  assert (M : Q2R (pw_c3 f2 / pw_c3 f0) = Q2R (pw_c3 f2) / Q2R (pw_c3 f0)).
  { apply Q2R_div. intros Z. apply Qeq_eqR in Z. rewrite Q2R_0 in Z. lra. }
  rewrite M in *. clear M. set (mu := Q2R (pw_c3 f2) / Q2R (pw_c3 f0)) in *.
  assert (MU : 0 < mu) by (apply Rdiv_lt_0_compat; assumption). assert (MC : mu * Q2R (pw_c3 f0) = Q2R (pw_c3 f2)) by (unfold mu; field; lra).
  unfold pw_R. set (d0 := den (Q2R (pw_c1 f0)) _ _ _ x w). set (d2 := den (Q2R (pw_c1 f2)) _ _ _ x w).
  assert (D0 : 0 < d0) by (apply den_pos; assumption). assert (D2 : 0 < d2) by (apply den_pos; assumption).
  destruct (Rle_lt_dec x 14) as [X|X].
  - apply (fit_upper _ 1); try assumption; try lra.
    + rewrite Rmult_1_l. apply den_le_small; try assumption; try lra.
      * assert (Q2R (pw_c3 f2) <= Q2R (pw_c3 f0)). { rewrite <- MC. apply Rle_trans with (1 * Q2R (pw_c3 f0)); [apply Rmult_le_compat_r; lra|lra]. } lra.
    + assert (L : 1 + Q2R (pw_a f2) * x <= 1 + Q2R (pw_a f0) * x) by (apply Rplus_le_compat_l, Rmult_le_compat_r; lra).
      assert (1 <= 1 + Q2R (pw_a f2) * x) by (pose proof (lin_pos _ _ a2 Px); assert (0 < Q2R (pw_a f2) * x) by (apply Rmult_lt_0_compat; assumption); lra).
      assert (0 < Q2R (pw_A f2) * Q2R (pw_k f2)) by (apply Rmult_lt_0_compat; assumption).
      replace (87/100 * Q2R (pw_A f0) * Q2R (pw_k f0) * 1 * (1 + Q2R (pw_a f0) * x)) with ((87/100 * Q2R (pw_A f0) * Q2R (pw_k f0)) * (1 + Q2R (pw_a f0) * x)) by ring.
      apply Rmult_le_compat; lra.
  - apply (fit_upper _ mu); try assumption; try lra.
    + apply den_le; try assumption; try lra.
      * apply Rle_trans with (1 * Q2R (pw_c2 f0)); [apply Rmult_le_compat_r; lra|lra].
      * apply Rle_trans with (1 * Q2R (pw_c4 f0)); [apply Rmult_le_compat_r; lra|lra].
    + set (p := Q2R (pw_A f2) * Q2R (pw_k f2)) in *. set (q := 87/100 * Q2R (pw_A f0) * Q2R (pw_k f0) * mu) in *.
      replace (p * (1 + Q2R (pw_a f2) * x)) with (p * (1 + 14 * Q2R (pw_a f2)) + (p * Q2R (pw_a f2)) * (x - 14)) by ring.
      replace (q * (1 + Q2R (pw_a f0) * x)) with (q * (1 + 14 * Q2R (pw_a f0)) + (q * Q2R (pw_a f0)) * (x - 14)) by ring.
      apply Rplus_le_compat; [assumption|]. apply Rmult_le_compat_r; [lra|assumption].
Qed.
Lemma pw_ge_ok f0 f1 x w : pw_pos f0 = true -> pw_pos f1 = true -> pw_ge f0 f1 = true -> 0 < x -> 0 < w -> 13/100 * pw_R f0 x w <= pw_R f1 x w.
Proof.
  intros P0 P1 H Px Pw. destruct (pw_pos_ok _ P0) as (A0 & a0 & k0 & c01 & c02 & c03 & c04). destruct (pw_pos_ok _ P1) as (A1 & a1 & k1 & c11 & c12 & c13 & c14).
  unfold pw_ge in H. splitb. q2r. rewrite ?Q2R_13, ?Q2R_3, ?Q2R_9 in *.
  unfold pw_R. set (d0 := den (Q2R (pw_c1 f0)) _ _ _ x w). set (d1 := den (Q2R (pw_c1 f1)) _ _ _ x w).
  assert (D0 : 0 < d0) by (apply den_pos; assumption). assert (D1 : 0 < d1) by (apply den_pos; assumption).
  assert (D : d1 <= 3 * d0).
  { apply (Rmult_le_reg_l (/3)); [lra|]. replace (/3 * (3 * d0)) with d0 by field. apply den_le; try assumption; lra. }
  apply (fit_lower _ 3); try assumption; try lra.
  assert (X : 0 < Q2R (pw_a f0) * x) by (apply Rmult_lt_0_compat; assumption).
  assert (L : 9/10 * (1 + Q2R (pw_a f0) * x) <= 1 + Q2R (pw_a f1) * x).
  { assert (9/10 * Q2R (pw_a f0) * x <= Q2R (pw_a f1) * x) by (apply Rmult_le_compat_r; lra). lra. }
  set (p := Q2R (pw_A f1) * Q2R (pw_k f1)) in *. assert (P : 0 < p) by (apply Rmult_lt_0_compat; assumption).
  apply Rle_trans with (p * (9/10 * (1 + Q2R (pw_a f0) * x))); [|apply Rmult_le_compat_l; lra].
  rewrite <- Rmult_assoc. apply Rmult_le_compat_r; [lra|].
  replace (p * (9/10)) with (9/10 * Q2R (pw_A f1) * Q2R (pw_k f1)) by (unfold p; ring). lra.
Qed.

(** Products as lists of factors. *)
Definition vals (l : list expr) (xs : list R) : Prop := Forall2 (fun e x => ev e = Some (VR x)) l xs.
Definition rprod (l : list R) : R := fold_right Rmult 1 l.
Lemma rprod_app l m : rprod (l ++ m) = rprod l * rprod m.
Proof. unfold rprod. induction l as [|x l IH]; cbn [app fold_right]; [ring|]. rewrite IH. ring. Qed.
Lemma factors_vals e : forall v, ev e = Some (VR v) -> exists xs, vals (factors e) xs /\ v = rprod xs.
Proof.
  assert (S : forall e v, ev e = Some (VR v) -> exists xs, vals [e] xs /\ v = rprod xs).
  { intros e' v E. exists [v]. split; [repeat constructor; exact E|cbn; ring]. }
  induction e; intros v E; cbn [factors]; try (apply S, E).
  cbn [eval] in E. apply real2 in E. destruct E as (y & z & E1 & E2 & Q). injection Q as <-. destruct (IHe1 _ E1) as (xs & V & ->).
  exists (xs ++ [z]). split; [apply Forall2_app; [exact V|repeat constructor; exact E2]|rewrite rprod_app; cbn; ring].
Qed.
Lemma fold_vals l : forall xs e u, vals l xs -> ev e = Some (VR u) -> ev (fold_left EMul l e) = Some (VR (u * rprod xs)).
Proof.
  induction l as [|x l IH]; intros xs e u V E; inversion V; subst; cbn [fold_left]; [rewrite E; cbn; do 2 f_equal; ring|].
  match goal with H : ev x = Some (VR ?z), V : Forall2 _ l ?ys |- _ => rewrite (IH ys (EMul e x) (u * z) V) by (cbn [eval]; rewrite E, H; reflexivity) end.
  unfold rprod. cbn [fold_right]. do 2 f_equal. ring.
Qed.
Lemma prod_vals l xs : vals l xs -> l <> [] -> ev (prod l) = Some (VR (rprod xs)).
Proof. destruct l as [|x l]; [congruence|]. intros V _. inversion V; subst. cbn [prod]. erewrite fold_vals by eassumption. reflexivity. Qed.
Lemma leqe_eq : forall a c, leqe a c = true -> a = c.
Proof.
  induction a as [|x a IH]; intros [|y c] H; try discriminate; [reflexivity|]. cbn [leqe] in H. apply andb_prop in H. destruct H as [E H].
  apply eeqb_eq in E. rewrite E, (IH _ H). reflexivity.
Qed.
Lemma vals_fun l : forall xs ys, vals l xs -> vals l ys -> xs = ys.
Proof. induction l as [|e l IH]; intros xs ys A B; inversion A; inversion B; subst; [reflexivity|]. f_equal; [congruence|apply IH; assumption]. Qed.
Lemma prod_itv_ok l : forall xs, vals l xs -> inside (prod_itv env l) (rprod xs).
Proof.
  induction l as [|e l IH]; intros xs V; inversion V; subst; cbn [prod_itv rprod fold_right].
  - replace 1 with (D2R one) by (unfold D2R, one; cbn; lra). apply const_ok.
  - apply imul_ok; [apply stored_ok; assumption|apply IH; assumption].
Qed.
Lemma in_unit_ok i x : in_unit i = true -> inside i x -> 0 <= x <= 1.
Proof.
  unfold in_unit. intros H G. apply andb_prop in H. destruct H as [A B]. split; [exact (lo_nonneg_ok _ _ A G)|].
  eapply (bnd_le_ok _ _ _ _ B); [apply G|]. cbn [in_lo]. unfold D2R, one. cbn. lra.
Qed.
Lemma small_ok i x : small i = true -> inside i x -> 0 <= x <= 73/64.
Proof.
  unfold small. intros H G. apply andb_prop in H. destruct H as [A B]. split; [exact (lo_nonneg_ok _ _ A G)|].
  eapply (bnd_le_ok _ _ _ _ B); [apply G|]. cbn [in_lo]. unfold D2R, p2. cbn [powerRZ]. change (Pos.to_nat 6) with 6%nat.
  replace (/ 2 ^ 6) with (/ 64) by (f_equal; ring). lra.
Qed.
Lemma weight_ok_ok fl zf xs ys : weight_ok sg env defs fl zf = true -> vals fl xs -> vals zf ys -> exists z, 0 <= z <= 1 /\ rprod ys = z * rprod xs.
Proof.
  unfold weight_ok. generalize (length zf - length fl)%nat. intros n H Vf Vz. apply andb_prop in H. destruct H as [L H]. apply leqe_eq in L.
  rewrite <- (firstn_skipn n zf) in Vz. apply Forall2_app_inv_l in Vz. destruct Vz as (zs & fs & V1 & V2 & ->). rewrite L in V2.
  rewrite (vals_fun _ _ _ V2 Vf). exists (rprod zs). split; [|apply rprod_app].
  destruct (firstn n zf) as [|z zl] eqn:F; [inversion V1; unfold rprod; cbn [fold_right]; lra|].
  apply (in_unit_ok _ _ H). apply meet_ok; [|apply pow_itv_ok, prod_vals; [exact V1|discriminate]].
  destruct zl; [|apply inside_top]. inversion V1 as [|? v ? ? E V]; subst. inversion V; subst. unfold rprod. cbn [fold_right]. rewrite Rmult_1_r. apply stored_ok, E.
Qed.
Lemma pw_sum_ok a c v : ev (EAdd a c) = Some (VR v) -> inside (pw_sum sg env defs a c) v.
Proof.
  intros E. unfold pw_sum. destruct a as [| | | |n b'| | | | | | | | | | |]; try apply inside_top. destruct n as [| | |e0| | | | | | | | | | | |]; try apply inside_top.
  destruct (pw_term defs e0) as [f0|] eqn:T0; [|apply inside_top].
  cbn [eval] in E. apply real2 in E. destruct E as (s & vc & E & Ec & Q). injection Q as <-. apply real2 in E. destruct E as (n0 & vb & E0 & Eb & Q). injection Q as <-.
  apply real1 in E0. destruct E0 as (v0 & E0 & Q). injection Q as <-.
  rewrite <- unv_ok in Ec, Eb.
  destruct (unv defs c) as [| | | | | |c' p| | | | | | | | |]; try apply inside_top.
  destruct (unv defs b') as [| | | | | |zf d| | | | | | | | |]; try apply inside_top.
  destruct (factors c') as [|A fl] eqn:Fc; [apply inside_top|]. destruct A as [A2| | | | | | | | | | | | | | |]; try apply inside_top.
  cbn [eval] in Ec, Eb. apply real2 in Ec. destruct Ec as (vc' & vp & Ec & Ep & Q). injection Q as <-.
  apply real2 in Eb. destruct Eb as (vzf & vd & Ezf & Ed & Q). injection Q as <-.
  pose proof Ep as Ep'. rewrite <- unv_ok in Ep', Ed.
  destruct (unv defs p) as [| | | | | |l g| | | | | | | | |]; try apply inside_top.
  destruct (unv defs d) as [| | | | |d1 d2| | | | | | | | | |]; try apply inside_top.
  destruct d1 as [| | | |e1 e0'| | | | | | | | | | |]; try apply inside_top.
  destruct d2 as [| | | | | |A2' p'| | | | | | | | |]; try apply inside_top. destruct A2' as [A2'| | | | | | | | | | | | | | |]; try apply inside_top.
  destruct (pw_fit defs A2 l g) as [f2|] eqn:T2; [|apply inside_top]. destruct (pw_neg defs e1) as [f1|] eqn:T1; [|apply inside_top].
  destruct (_ && _) eqn:H; [|apply inside_top]. unfold same_arg in H. splitb.
  repeat match goal with H : eeqb _ _ = true |- _ => apply eeqb_eq in H end. subst e0' p'.
  cbn [eval] in Ep', Ed. apply real2 in Ep'. destruct Ep' as (vl & vg & El & Eg & Q). injection Q as <-.
  apply real2 in Ed. destruct Ed as (s1 & s2 & E1 & E2 & Q). injection Q as <-. apply real2 in E1. destruct E1 as (v1 & v0' & E1 & E0' & Q). injection Q as <-.
  rewrite E0 in E0'. injection E0' as <-. apply real2 in E2. destruct E2 as (a2 & p2 & E2 & Ep2 & Q). injection E2 as <-. injection Q as <-.
  rewrite Ep in Ep2. injection Ep2 as <-.
  destruct (pw_term_ok _ _ _ T0 E0) as (x & w & Ex & Ew & V0).
  destruct (pw_neg_ok _ _ _ T1 E1) as (x1 & w1 & Ex1 & Ew1 & V1).
  destruct (pw_fit_ok _ _ _ _ _ _ T2 El Eg) as (_ & x2 & w2 & Ex2 & Ew2 & V2).
  repeat match goal with H : pw_x f0 = _ |- _ => rewrite <- H in *; clear H | H : pw_w f0 = _ |- _ => rewrite <- H in *; clear H end.
  rewrite Ex in Ex1, Ex2. injection Ex1 as <-. injection Ex2 as <-. rewrite Ew in Ew1, Ew2. injection Ew1 as <-. injection Ew2 as <-.
  match goal with H : lo_pos (as_itv (stored env (pw_x f0))) = true |- _ => pose proof (lo_pos_ok _ _ H (stored_ok _ _ Ex)) as Px end.
  match goal with H : lo_pos (as_itv (stored env (pw_w f0))) = true |- _ => pose proof (lo_pos_ok _ _ H (stored_ok _ _ Ew)) as Pw end.
  specialize (V0 Px Pw). specialize (V1 Px Pw). specialize (V2 Px Pw).
  destruct (factors_vals _ _ Ec) as (cs & Vc & ->). rewrite Fc in Vc. inversion Vc as [|? A' ? fs EA Vf]; subst. cbn [eval] in EA. injection EA as <-.
  destruct (factors_vals _ _ Ezf) as (zs & Vz & ->). edestruct weight_ok_ok as (z & Hz & ->); [eassumption|exact Vf|exact Vz|].
  pose proof (prod_itv_ok _ _ Vf) as Hf. eapply small_ok in Hf; [|eassumption]. set (F := rprod fs) in *.
  assert (P : Q2R A2 * (vl * vg) = pw_R f2 x w) by (rewrite <- V2; ring).
  match goal with H : Qeq_bool A2 A2' = true |- _ => apply Qeq_bool_R in H; rewrite <- H in * end.
  pose proof (pw_le_ok f0 f2 x w ltac:(assumption) ltac:(assumption) ltac:(assumption) Px Pw) as LE.
  pose proof (pw_ge_ok f0 f1 x w ltac:(assumption) ltac:(assumption) ltac:(assumption) Px Pw) as GE.
  assert (POS : 0 < pw_R f0 x w).
  { destruct (pw_pos_ok f0 ltac:(assumption)) as (? & ? & ? & ? & ? & ? & ?). apply fit_pos; try assumption. apply den_pos; assumption. }
  split; cbn [lo hi in_lo in_hi]; [exact Logic.I|]. replace (D2R zero) with 0 by (unfold D2R, zero; cbn; lra). rewrite P.
  pose proof (pw_negative (pw_R f0 x w) (pw_R f1 x w) (pw_R f2 x w) z F POS GE LE Hz Hf) as N.
  replace (rprod (Q2R A2 :: fs) * (vl * vg)) with (F * pw_R f2 x w) by (rewrite <- P; cbn [rprod fold_right]; fold (rprod fs); fold F; ring).
  exact N.
Qed.
End Special.
End Precision.
