(** Soundness of the abstract interpretation. *)
From Coq Require Import Reals ZArith NArith QArith Qreals Bool List Lra Lia Machin Ratan.
From Verif Require Import Bytes Syntax Semantics Free RPow Interval IntervalThm IntervalThm2 Absint.
Import ListNotations.
Open Scope R_scope.

Section Precision.
Context {prc : setting}.

(** ** Linear forms *)
Fixpoint lval (b : list R) (a : lin) : R :=
  match a, b with x :: a, y :: b => Q2R x * y + lval b a | _, _ => 0 end.
Lemma Q2R_red q : Q2R (Qred q) = Q2R q.
Proof. apply Qeq_eqR, Qred_correct. Qed.
Lemma ladd_R : forall a c b, lval b (ladd a c) = lval b a + lval b c.
Proof.
  induction a as [|x a IH]; intros [|y c] [|z b]; cbn [ladd lval]; try lra.
  rewrite Q2R_red, Q2R_plus, IH. ring.
Qed.
Lemma lscale_R k : forall a b, lval b (lscale k a) = Q2R k * lval b a.
Proof.
  induction a as [|x a IH]; intros [|z b]; cbn [lscale map lval]; try lra.
  change (map _ a) with (lscale k a). rewrite Q2R_red, Q2R_mult, IH. ring.
Qed.
Lemma Qeq_bool_R x y : Qeq_bool x y = true -> Q2R x = Q2R y.
Proof. intros H. apply Qeq_eqR, Qeq_bool_eq, H. Qed.
Lemma Qle_bool_R x y : Qle_bool x y = true -> Q2R x <= Q2R y.
Proof. intros H. apply Qle_Rle, Qle_bool_iff, H. Qed.
Lemma Qle_bool_Rf x y : Qle_bool x y = false -> Q2R y < Q2R x.
Proof.
  intros H. apply Qlt_Rlt. destruct (Qlt_le_dec y x) as [L|L]; [exact L|]. apply Qle_bool_iff in L. congruence.
Qed.
Lemma lzero_R : forall a b, lzero a = true -> lval b a = 0.
Proof.
  induction a as [|x a IH]; intros [|z b] H; try reflexivity. cbn in H. apply andb_prop in H. destruct H as [E H].
  cbn [lval]. rewrite (IH b H), (Qeq_bool_R _ _ E), RPow.Q2R_0. ring.
Qed.
Lemma leqb_R : forall a c b, leqb a c = true -> lval b a = lval b c.
Proof.
  induction a as [|x a IH]; intros [|y c] b H; cbn [leqb] in H.
  - reflexivity.
  - destruct b; [reflexivity|]. symmetry. apply lzero_R, H.
  - destruct b; [reflexivity|]. apply lzero_R, H.
  - apply andb_prop in H. destruct H as [E H]. destruct b as [|z b]; [reflexivity|]. cbn [lval].
    rewrite (Qeq_bool_R _ _ E), (IH c b H). reflexivity.
Qed.
(** The first argument of a form is the constant 1. *)
Definition headed (b : list R) : Prop := exists t, b = 1 :: t.
Lemma lconst_R a k b : headed b -> lconst a = Some k -> lval b a = Q2R k.
Proof.
  intros [t ->]. destruct a as [|x a]; cbn [lconst]; intros H.
  - injection H as <-. rewrite RPow.Q2R_0. reflexivity.
  - destruct (lzero a) eqn:Z; [|discriminate]. injection H as <-. cbn [lval]. rewrite (lzero_R _ _ Z). ring.
Qed.
Lemma lone b : headed b -> lval b [1%Q] = 1.
Proof. intros [t ->]. cbn [lval]. rewrite RPow.Q2R_1. destruct t; cbn [lval]; ring. Qed.

Definition form_val (b : list R) (f : lfrac) (x : R) : Prop := lval b (snd f) <> 0 /\ x = lval b (fst f) / lval b (snd f).
Section Forms.
Variable b : list R.
Hypothesis Hb : headed b.

Lemma Q2R_m1 : Q2R (-1) = -1. Proof. unfold Q2R. cbn. lra. Qed.
Lemma fneg_ok f x : form_val b f x -> form_val b (fneg f) (- x).
Proof. intros [N ->]. split; cbn [fst snd fneg]; [exact N|]. rewrite lscale_R, Q2R_m1. field. exact N. Qed.
Lemma fconst_ok f k x : fconst f = Some k -> form_val b f x -> x = Q2R k.
Proof.
  unfold fconst. intros H [N ->]. destruct (lconst (fst f)) as [u|] eqn:A; [|discriminate].
  destruct (lconst (snd f)) as [v|] eqn:B; [|discriminate]. destruct (is_one v) eqn:O; [|discriminate]. injection H as <-.
  rewrite (lconst_R _ _ _ Hb A), (lconst_R _ _ _ Hb B). unfold is_one in O. rewrite (Qeq_bool_R _ _ O), RPow.Q2R_1. field.
Qed.
Lemma fadd_ok f g h x y : fadd f g = Some h -> form_val b f x -> form_val b g y -> form_val b h (x + y).
Proof.
  unfold fadd. intros H Hx Hy. destruct (leqb (snd f) (snd g)) eqn:E.
  - injection H as <-. destruct Hx as [N ->], Hy as [M ->]. split; cbn [fst snd]; [exact N|].
    rewrite <- (leqb_R _ _ b E), ladd_R. field. exact N.
  - destruct (fconst g) as [k|] eqn:C.
    + injection H as <-. rewrite (fconst_ok _ _ _ C Hy). destruct Hx as [N ->]. split; cbn [fst snd]; [exact N|].
      rewrite ladd_R, lscale_R. field. exact N.
    + destruct (fconst f) as [k|] eqn:C'; [|discriminate]. injection H as <-. rewrite (fconst_ok _ _ _ C' Hx).
      destruct Hy as [N ->]. split; cbn [fst snd]; [exact N|]. rewrite ladd_R, lscale_R. field. exact N.
Qed.
Lemma leqb_one a : leqb a [1%Q] = true -> lval b a = 1.
Proof. intros H. rewrite (leqb_R _ _ b H). apply lone, Hb. Qed.
Lemma fmul_ok f g h x y : fmul f g = Some h -> form_val b f x -> form_val b g y -> form_val b h (x * y).
Proof.
  unfold fmul. intros H [N ->] [M ->]. destruct (lconst (fst g)) as [k|] eqn:C.
  - pose proof (lconst_R _ _ _ Hb C) as K. destruct (leqb (snd g) [1%Q]) eqn:E.
    + injection H as <-. split; cbn [fst snd]; [exact N|]. rewrite lscale_R, K, (leqb_one _ E). field. exact N.
    + destruct (leqb (snd f) [1%Q]) eqn:E'; [|discriminate]. injection H as <-. split; cbn [fst snd]; [exact M|].
      rewrite lscale_R, K, (leqb_one _ E'). field. exact M.
  - destruct (lconst (fst f)) as [k|] eqn:C'; [|discriminate]. pose proof (lconst_R _ _ _ Hb C') as K.
    destruct (leqb (snd f) [1%Q]) eqn:E.
    + injection H as <-. split; cbn [fst snd]; [exact M|]. rewrite lscale_R, K, (leqb_one _ E). field. exact M.
    + destruct (leqb (snd g) [1%Q]) eqn:E'; [|discriminate]. injection H as <-. split; cbn [fst snd]; [exact N|].
      rewrite lscale_R, K, (leqb_one _ E'). field. exact N.
Qed.
Lemma fnorm_ok f x : form_val b f x -> form_val b (fnorm f) x.
Proof.
  intros [N E]. unfold fnorm. destruct (lconst (snd f)) as [k|] eqn:C; [|split; assumption].
  destruct (Qeq_bool k 0) eqn:Z; [split; assumption|]. pose proof (lconst_R _ _ _ Hb C) as K.
  split; cbn [fst snd]; rewrite (lone b Hb); [lra|]. rewrite lscale_R, E, K.
  rewrite Q2R_inv; [field; rewrite <- K; exact N|]. intros Q. apply Qeq_bool_iff in Q. congruence.
Qed.
Lemma finv_ok f x : form_val b f x -> x <> 0 -> form_val b (finv f) (/ x).
Proof.
  intros [N E] Hx. unfold finv. apply fnorm_ok. assert (A : lval b (fst f) <> 0).
  { intros A. apply Hx. rewrite E, A. unfold Rdiv. ring. }
  split; cbn [fst snd]; [exact A|]. rewrite E. field. split; assumption.
Qed.

End Forms.

Definition sat_sort (s : sort) (x : R) : Prop := match s with SPos => 0 < x | SNonneg => 0 <= x | SAny => True | SIn l h => Q2R l < x <= Q2R h end.
Lemma sort_mul s q x : sat_sort s x -> (match s with SPos | SNonneg => Qle_bool 0 q | _ => Qeq_bool q 0 end) = true -> 0 <= Q2R q * x.
Proof.
  destruct s; cbn [sat_sort]; intros H A.
  - apply Qle_bool_R in A. rewrite RPow.Q2R_0 in A. apply Rmult_le_pos; lra.
  - apply Qle_bool_R in A. rewrite RPow.Q2R_0 in A. apply Rmult_le_pos; lra.
  - apply Qeq_bool_R in A. rewrite A, RPow.Q2R_0. lra.
  - apply Qeq_bool_R in A. rewrite A, RPow.Q2R_0. lra.
Qed.
Lemma lge0_ok sg b : Forall2 sat_sort sg b -> forall a, lge0 sg a = true -> 0 <= lval b a.
Proof.
  induction 1 as [|s y sg b Hs _ IH]; intros a H; [destruct a; cbn [lval]; lra|].
  destruct a as [|x a]; [cbn [lval]; lra|]. cbn [lge0] in H. apply andb_prop in H. destruct H as [A H].
  cbn [lval]. specialize (IH a H). pose proof (sort_mul _ _ _ Hs A). lra.
Qed.
Lemma lgt0_ok sg b : Forall2 sat_sort sg b -> forall a, lge0 sg a = true -> lsome sg a = true -> 0 < lval b a.
Proof.
  induction 1 as [|s y sg b Hs Ht IH]; intros a H P; [destruct a; discriminate|].
  destruct a as [|x a]; [discriminate|]. cbn [lge0] in H. apply andb_prop in H. destruct H as [A H].
  cbn [lsome] in P. cbn [lval]. pose proof (sort_mul _ _ _ Hs A) as M. apply orb_prop in P. destruct P as [P|P].
  - pose proof (lge0_ok _ _ Ht a H). destruct s; try discriminate. apply negb_true_iff in P. apply Qle_bool_Rf in P. rewrite RPow.Q2R_0 in P. cbn [sat_sort] in Hs.
    assert (0 < Q2R x * y) by (apply Rmult_lt_0_compat; assumption). lra.
  - specialize (IH a H P). lra.
Qed.
Section Bounds.
Variable b : list R.
Variable sg : list sort.
Hypothesis Hsg : Forall2 sat_sort sg b.
Lemma fhi_ok a d : 0 < lval b d -> in_hi (fhi sg a d) (lval b a / lval b d).
Proof.
  intros P. unfold fhi. destruct (lratio a d None) as [m|]; [|exact I].
  destruct (lge0 sg _) eqn:G; [|exact I]. set (c := ladd _ _) in *.
  assert (E : lval b c = Q2R m * lval b d - lval b a) by (unfold c; rewrite ladd_R, !lscale_R, Q2R_m1; ring).
  pose proof (q_up_ge m) as U. destruct (lsome sg c) eqn:S; cbn [in_hi].
  - pose proof (lgt0_ok _ _ Hsg _ G S) as L. eapply Rlt_le_trans; [|exact U].
    apply (Rmult_lt_reg_r (lval b d)); [exact P|]. unfold Rdiv. rewrite Rmult_assoc, Rinv_l by lra. lra.
  - pose proof (lge0_ok _ _ Hsg _ G) as L. eapply Rle_trans; [|exact U].
    apply (Rmult_le_reg_r (lval b d)); [exact P|]. unfold Rdiv. rewrite Rmult_assoc, Rinv_l by lra. lra.
Qed.
Lemma fitv_ok f x : form_val b f x -> inside (fitv sg f) x.
Proof.
  destruct f as [a d]. intros [N ->]. cbn [fst snd] in *. unfold fitv.
  destruct (lgt0 sg d) eqn:P.
  - apply andb_prop in P. destruct P as [P1 P2]. pose proof (lgt0_ok _ _ Hsg _ P1 P2) as P. split; cbn [lo hi]; [|apply fhi_ok, P].
    pose proof (fhi_ok (lscale (-1) a) d P) as H. apply nbnd_lo in H. rewrite lscale_R, Q2R_m1 in H.
    replace (- (-1 * lval b a / lval b d)) with (lval b a / lval b d) in H by (field; exact N). exact H.
  - destruct (lgt0 sg (lscale (-1) d)) eqn:M; [|apply inside_top].
    apply andb_prop in M. destruct M as [P1 P2]. pose proof (lgt0_ok _ _ Hsg _ P1 P2) as Q.
    assert (E : lval b (lscale (-1) d) = - lval b d) by (rewrite lscale_R, Q2R_m1; ring).
    split; cbn [lo hi].
    + pose proof (fhi_ok a (lscale (-1) d) Q) as H. apply nbnd_lo in H. rewrite E in H.
      replace (- (lval b a / - lval b d)) with (lval b a / lval b d) in H by (field; exact N). exact H.
    + pose proof (fhi_ok (lscale (-1) a) (lscale (-1) d) Q) as H. rewrite E, lscale_R, Q2R_m1 in H.
      replace (-1 * lval b a / - lval b d) with (lval b a / lval b d) in H by (field; exact N). exact H.
Qed.
End Bounds.

(** ** What is assumed of the special functions
    Signs and bounds known of the functions of those names: e^x E1(x) lies between 1 / (x + 1) and
    (x + 1) / (x (x + 2)), the principal branch of w e^w = x between 0 and [x] for x >= 0, and the Bessel
    function I0 between 1 and e^|x|. *)
Definition odd_in (m : R) (x v : R) : Prop := (0 < x -> 0 < v) /\ (x < 0 -> v < 0) /\ (x = 0 -> v = 0) /\ - m < v < m.
Record ops_ok (I : interp) : Prop := {
  erf_ok : forall x, exists v, op1 I "erf" x = Some v /\ odd_in 1 x v;
  erfc_ok : forall x, exists v, op1 I "erfc" x = Some v /\ 0 < v < 2;
  erfcx_ok : forall x, exists v, op1 I "xc_erfcx" x = Some v /\ 0 < v;
  lambertw_ok : forall x, 0 <= x -> exists v, op1 I "lambertw" x = Some v /\ 0 <= v <= x;
  e1_ok : forall x, 0 < x -> exists v, op1 I "xc_E1_scaled" x = Some v /\ 1 / (x + 1) <= v <= (x + 1) / (x * (x + 2));
  i0_ok : forall x, exists v, op1 I "i0" x = Some v /\ 1 <= v <= exp (Rabs x);
  atan2_ok : forall x y, exists v, op2 I "atan2" x y = Some v }.

Lemma small_odd_ok m M i x v : D2R m = M -> odd_in M x v -> inside i x -> inside (small_odd m i) v.
Proof.
  intros <- (P & N & Z & L) H. unfold small_odd. pose proof (ineg_ok _ _ H) as Hn.
  destruct (lo_pos i) eqn:A. { pose proof (lo_pos_ok _ _ A H) as Hx. specialize (P Hx). split; cbn [lo hi in_lo in_hi]; rewrite ?D2R_zero; lra. }
  destruct (lo_nonneg i) eqn:B.
  { pose proof (lo_nonneg_ok _ _ B H) as Hx. assert (0 <= v) by (destruct Hx as [Hx|Hx]; [specialize (P Hx)|symmetry in Hx; specialize (Z Hx)]; lra).
    split; cbn [lo hi in_lo in_hi]; rewrite ?D2R_zero; lra. }
  destruct (lo_pos (ineg i)) eqn:C. { pose proof (lo_pos_ok _ _ C Hn) as Hx. assert (v < 0) by (apply N; lra). split; cbn [lo hi in_lo in_hi]; rewrite ?D2R_zero, ?dneg_R; lra. }
  destruct (lo_nonneg (ineg i)) eqn:E.
  { pose proof (lo_nonneg_ok _ _ E Hn) as Hx. assert (v <= 0). { destruct (Req_EM_T x 0) as [X|X]; [specialize (Z X); lra|left; apply N; lra]. }
    split; cbn [lo hi in_lo in_hi]; rewrite ?D2R_zero, ?dneg_R; lra. }
  split; cbn [lo hi in_lo in_hi]; rewrite ?dneg_R; lra.
Qed.
Lemma odd_sign_ok i x v : (0 < x -> 0 < v) -> (x < 0 -> v < 0) -> (x = 0 -> v = 0) -> inside i x -> inside (odd_sign i) v.
Proof.
  intros P N Z H. unfold odd_sign. pose proof (ineg_ok _ _ H) as Hn.
  destruct (lo_pos i) eqn:A; [apply positive_itv_ok, P, (lo_pos_ok i); assumption|].
  destruct (lo_nonneg i) eqn:B.
  { apply nonneg_itv_ok. destruct (lo_nonneg_ok _ _ B H) as [X|X]; [left; apply P, X|rewrite Z by auto; lra]. }
  destruct (lo_pos (ineg i)) eqn:C. { apply ineg_ok', positive_itv_ok. pose proof (lo_pos_ok _ _ C Hn). specialize (N ltac:(lra)). lra. }
  destruct (lo_nonneg (ineg i)) eqn:E; [|apply inside_top].
  apply ineg_ok', nonneg_itv_ok. pose proof (lo_nonneg_ok _ _ E Hn).
  destruct (Req_EM_T x 0) as [X|X]; [rewrite Z by exact X; lra|specialize (N ltac:(lra)); lra].
Qed.
Lemma unit_itv_ok x : -1 <= x <= 1 -> inside unit_itv x.
Proof. intros H. split; cbn [lo hi unit_itv in_lo in_hi]; rewrite ?D2R_int, ?D2R_one; lra. Qed.
Lemma pi_coarse_ok : inside (Itv (Bd (D 201 (-6)) true) (Bd (D 202 (-6)) true)) PI.
Proof.
  assert (P : p2 (-6) * 64 = 1) by (rewrite <- p2_6; exact (p2_opp 6)).
  pose proof (p2_pos (-6)). pose proof (PI_2_3_7_ineq 2) as B.
  unfold tg_alt, PI_2_3_7_tg, Ratan_seq in B. cbn [Nat.mul Nat.add sum_f_R0 pow INR] in B.
  assert (B1 : 201 / 64 < PI) by lra. assert (B2 : PI < 202 / 64) by lra.
  split; cbn [lo hi in_lo in_hi D2R]; lra.
Qed.
End Precision.
