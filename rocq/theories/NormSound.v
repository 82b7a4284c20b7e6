(** Soundness of the normaliser of Norm.v with respect to Semantics.v. *)
From Coq Require Import Reals List Bool NArith ZArith QArith Qpower Qreals Qround Lra Lia FMapPositive.
From Verif Require Import Bytes Syntax Semantics RPow Norm.
Import ListNotations.
Open Scope R_scope.

(** ** Rationals *)
Lemma qeqb_eq a b : qeqb a b = true -> a = b.
Proof.
  unfold qeqb. rewrite andb_true_iff, Z.eqb_eq, Pos.eqb_eq.
  destruct a, b; simpl. intros [-> ->]. reflexivity.
Qed.
Lemma qis0_true a : qis0 a = true -> Q2R a = 0.
Proof. unfold qis0, Q2R. destruct (Qnum a); try discriminate. intros _. lra. Qed.
Lemma qis0_Qeq a : qis0 a = true -> (a == 0)%Q.
Proof. unfold qis0. destruct a as [[| |] d]; simpl; try discriminate. intros _. reflexivity. Qed.
Lemma Q2R_sign a : match Qnum a with Z0 => Q2R a = 0 | Zpos _ => 0 < Q2R a | Zneg _ => Q2R a < 0 end.
Proof.
  unfold Q2R. destruct a as [[|n|n] d]; simpl.
  - lra.
  - apply Rmult_lt_0_compat; [apply IZR_lt; reflexivity|apply Rinv_0_lt_compat, IZR_lt; reflexivity].
  - assert (0 < IZR (Zpos n) * / IZR (Zpos d)).
    { apply Rmult_lt_0_compat; [apply IZR_lt; reflexivity|apply Rinv_0_lt_compat, IZR_lt; reflexivity]. }
    change (Zneg n) with (- Zpos n)%Z. rewrite opp_IZR. lra.
Qed.
Lemma qis0_false a : qis0 a = false -> Q2R a <> 0.
Proof.
  unfold qis0. pose proof (Q2R_sign a). destruct (Qnum a); try discriminate; intros _; lra.
Qed.
Lemma qcross_spec x d : exists g : positive, x = (Zpos g * fst (qcross x d))%Z /\ Zpos d = (Zpos g * Zpos (snd (qcross x d)))%Z.
Proof.
  assert (H1 : exists g : positive, x = (Zpos g * x)%Z /\ Zpos d = (Zpos g * Zpos d)%Z) by (exists 1%positive; lia).
  assert (Hg : forall p, let '(_, (p', d')) := Pos.ggcd p d in exists g : positive, Zpos p = (Zpos g * Zpos p')%Z /\ Zpos d = (Zpos g * Zpos d')%Z).
  { intros p. pose proof (Pos.ggcd_correct_divisors p d) as H. destruct (Pos.ggcd p d) as (g & p' & d'). destruct H as [-> ->].
    exists g. rewrite !Pos2Z.inj_mul. split; reflexivity. }
  assert (Hx : forall e : positive, exists g : positive, x = (Zpos g * fst (match x with
      | Z0 => (Z0, xH)
      | Zpos xH | Zneg xH => (x, d)
      | Zpos p => let '(_, (p', d')) := Pos.ggcd p d in (Zpos p', d')
      | Zneg p => let '(_, (p', d')) := Pos.ggcd p d in (Zneg p', d') end))%Z /\ Zpos d = (Zpos g * Zpos (snd (match x with
      | Z0 => (Z0, xH)
      | Zpos xH | Zneg xH => (x, d)
      | Zpos p => let '(_, (p', d')) := Pos.ggcd p d in (Zpos p', d')
      | Zneg p => let '(_, (p', d')) := Pos.ggcd p d in (Zneg p', d') end)))%Z).
  { intros _. destruct x as [|p|p].
    - exists d. cbn [fst snd]. lia.
    - pose proof (Hg p) as H. destruct p; [destruct (Pos.ggcd _ _) as (? & ? & ?)..|]; cbn [fst snd]; assumption.
    - pose proof (Hg p) as H. destruct p; [destruct (Pos.ggcd _ _) as (? & ? & ?)..|]; cbn [fst snd]; try assumption;
        destruct H as (g & Hp & Hd); exists g; (split; [|exact Hd]); rewrite <- !Pos2Z.opp_pos, Hp; ring. }
  unfold qcross. destruct d; [exact (Hx xH)..|exact H1].
Qed.
Lemma qadd_Qeq a b : (qadd a b == a + b)%Q.
Proof.
  destruct a as [n d], b as [m k].
  assert (H1 : (Qmake (n * Zpos k + m) k == (n # 1) + (m # k))%Q) by (unfold Qeq, Qplus; cbn [Qnum Qden Pos.mul]; ring).
  assert (H2 : (Qmake (n + m * Zpos d) d == (n # d) + (m # 1))%Q).
  { unfold Qeq, Qplus; cbn [Qnum Qden]. rewrite Pos.mul_1_r. ring. }
  assert (H3 : ((if Pos.eqb d k then let '(x, d') := qcross (n + m) d in Qmake x d'
      else
        let '(g, (d', e')) := Pos.ggcd d k in
        let '(x, g') := qcross (n * Zpos e' + m * Zpos d') g in Qmake x (d' * e' * g')) == (n # d) + (m # k))%Q).
  { destruct (Pos.eqb d k) eqn:E.
    - apply Pos.eqb_eq in E. subst k. destruct (qcross_spec (n + m) d) as (g & Hx & Hd). destruct (qcross (n + m) d) as [x d']. cbn [fst snd] in *.
      unfold Qeq, Qplus; cbn [Qnum Qden]. rewrite Pos2Z.inj_mul, <- Z.mul_add_distr_r, Hx, Hd. ring.
    - pose proof (Pos.ggcd_correct_divisors d k) as Hk. destruct (Pos.ggcd d k) as (g & d' & e'). destruct Hk as [-> ->].
      destruct (qcross_spec (n * Zpos e' + m * Zpos d') g) as (h & Hx & Hd). destruct (qcross _ g) as [x g']. cbn [fst snd] in *.
      unfold Qeq, Qplus; cbn [Qnum Qden]. rewrite !Pos2Z.inj_mul.
      transitivity (Zpos g * x * (Zpos g * Zpos d' * Zpos e'))%Z; [ring|].
      transitivity ((n * Zpos e' + m * Zpos d') * (Zpos g * Zpos d' * Zpos e' * Zpos g'))%Z; [|ring]. rewrite Hx, Hd. ring. }
  unfold qadd; cbn [Qnum Qden]. destruct d; destruct k; try exact H3; try exact H1; exact H2.
Qed.
Lemma qmul_Qeq a b : (qmul a b == a * b)%Q.
Proof.
  destruct a as [n d], b as [m k].
  assert (H1 : forall x, (x * 1 == x)%Q) by (intros; ring).
  assert (H2 : forall x, (1 * x == x)%Q) by (intros; ring).
  assert (H3 : ((let '(x, e) := qcross n k in let '(y, d) := qcross m d in Qmake (x * y) (d * e)) == (n # d) * (m # k))%Q).
  { destruct (qcross_spec n k) as (g & Hx & Hk). destruct (qcross n k) as [x e]. destruct (qcross_spec m d) as (h & Hy & Hd). destruct (qcross m d) as [y d']. cbn [fst snd] in *.
    unfold Qeq, Qmult; cbn [Qnum Qden]. rewrite !Pos2Z.inj_mul. rewrite Hx, Hy, Hk, Hd. ring. }
  unfold qmul.
  destruct d, k; destruct n as [|[]|], m as [|[]|]; try exact H3;
    try (symmetry; apply H1); try (symmetry; apply H2);
    unfold Qeq, Qmult; cbn [Qnum Qden Pos.mul]; ring.
Qed.
Lemma Q2R_qadd a b : Q2R (qadd a b) = Q2R a + Q2R b.
Proof. rewrite (Qeq_eqR _ _ (qadd_Qeq a b)). apply Q2R_plus. Qed.
Lemma Q2R_qmul a b : Q2R (qmul a b) = Q2R a * Q2R b.
Proof. rewrite (Qeq_eqR _ _ (qmul_Qeq a b)). apply Q2R_mult. Qed.
Lemma Q2R_qopp a : Q2R (qopp a) = - Q2R a.
Proof. apply Q2R_opp. Qed.
Lemma Q2R_qinv a : Q2R a <> 0 -> Q2R (qinv a) = / Q2R a.
Proof.
  intros H. apply Q2R_inv. intros E. apply H. rewrite (Qeq_eqR _ _ E). apply Q2R_0.
Qed.
Lemma qsub_Qeq a b : (qsub a b == a - b)%Q.
Proof. unfold qsub. rewrite qadd_Qeq. reflexivity. Qed.
Lemma qltb_lt a b : qltb a b = true -> (a < b)%Q.
Proof. unfold qltb. rewrite Qlt_alt. destruct (a ?= b)%Q; congruence. Qed.
Lemma qleb_le a b : qleb a b = true -> (a <= b)%Q.
Proof. unfold qleb. rewrite Qle_alt. destruct (a ?= b)%Q; congruence. Qed.
Lemma Q2R_q1 : Q2R q1 = 1.
Proof. apply Q2R_1. Qed.
Lemma Q2R_q0 : Q2R q0 = 0.
Proof. apply Q2R_0. Qed.
Lemma qint_eq a z : qint a = Some z -> a = z # 1.
Proof. unfold qint. destruct a as [n d]; simpl. destruct d; congruence. Qed.
Lemma qoddden_eq a : qoddden a = qodd a.
Proof. unfold qoddden, qodd. destruct (Qden (Qred a)); reflexivity. Qed.
Lemma qevennum_eq a : qevennum a = qnum_even a.
Proof. reflexivity. Qed.
Lemma qpowz_qpow p k : qpow (IZR (Zpos p)) (k # 1) = Some (Q2R (qpowz p k)).
Proof.
  assert (Hp : 0 < IZR (Zpos p)) by (apply IZR_lt; reflexivity).
  unfold qpow. destruct (Rlt_dec 0 (IZR (Zpos p))); [|lra].
  rewrite Q2R_Z, <- powerRZ_Rpower by exact Hp. f_equal.
  assert (E : forall n, IZR (Zpos (Pos.pow p n)) = IZR (Zpos p) ^ Pos.to_nat n).
  { intros n. rewrite pow_IZR. rewrite Pos2Z.inj_pow. do 2 f_equal. lia. }
  destruct k as [|n|n]; simpl.
  - unfold Q2R; simpl; lra.
  - unfold Q2R; simpl. rewrite E. lra.
  - unfold Q2R; simpl. rewrite E. lra.
Qed.
Lemma qpown_power a n : qpown a n = Qpower_positive a n.
Proof. destruct a as [x y]. symmetry. exact (Qpower_decomp_positive n x y). Qed.
Lemma Q2R_qpown a n : Q2R (qpown a n) = Q2R a ^ Pos.to_nat n.
Proof.
  rewrite qpown_power.
  change (Qpower_positive a n) with (Qpower a (Zpos n)).
  induction n as [|n IH] using Pos.peano_ind.
  - simpl. rewrite Rmult_1_r. reflexivity.
  - rewrite Pos2Nat.inj_succ. simpl pow. rewrite <- IH.
    rewrite <- Q2R_mult. apply Qeq_eqR. rewrite Pos2Z.inj_succ.
    replace (Z.succ (Z.pos n)) with (1 + Z.pos n)%Z by lia.
    rewrite Qpower_plus'; [|lia]. simpl. reflexivity.
Qed.
Lemma Q2R_qabs a : Q2R (qabs a) = Rabs (Q2R a).
Proof.
  pose proof (Q2R_sign a) as H. unfold qabs. destruct a as [[|n|n] d]; simpl in *.
  - unfold Q2R in *; simpl in *. rewrite H, Rabs_R0. lra.
  - rewrite Rabs_right by lra. reflexivity.
  - rewrite Rabs_left by lra. unfold Q2R; simpl.
    change (Zneg n) with (- Zpos n)%Z. rewrite opp_IZR. lra.
Qed.

(** ** Equality tests *)
Lemma meqb_eq m n : meqb m n = true -> m = n.
Proof.
  revert n; induction m as [|[a e] m IH]; intros [|[b f] n]; simpl; try discriminate; [reflexivity|].
  destruct (Pos.eqb a b) eqn:Ea; [|discriminate]. destruct (qeqb e f) eqn:Ee; [|discriminate].
  intros H. apply Pos.eqb_eq in Ea. apply qeqb_eq in Ee. apply IH in H. congruence.
Qed.
Lemma teqb_eq t u : teqb t u = true -> t = u.
Proof.
  unfold teqb. destruct t as [c m], u as [d n]; simpl.
  destruct (qeqb c d) eqn:E; [|discriminate]. intros H.
  apply qeqb_eq in E. apply meqb_eq in H. congruence.
Qed.
Lemma leqb_eq l k : leqb l k = true -> l = k.
Proof.
  revert k; induction l as [|t l IH]; intros [|u k]; simpl; try discriminate; [reflexivity|].
  destruct (teqb t u) eqn:E; [|discriminate]. intros H.
  apply teqb_eq in E. apply IH in H. congruence.
Qed.
Lemma ceqb_eq c d : ceqb c d = true -> c = d.
Proof.
  revert d; induction c as [| |t|t|t|a IHa b IHb|a IHa b IHb]; intros [| |u|u|u|a' b'|a' b'];
    simpl; intros H; try discriminate; try reflexivity; try (f_equal; apply teqb_eq; exact H).
  - destruct (ceqb a a') eqn:E; [|discriminate]. f_equal; auto.
  - destruct (ceqb a a') eqn:E; [|discriminate]. f_equal; auto.
Qed.
Lemma fn1_eqb_eq f g : fn1_eqb f g = true -> f = g.
Proof.
  destruct f, g; simpl; intros H; try discriminate; try reflexivity.
  apply beqb_eq in H. congruence.
Qed.
Ltac eqb_split :=
  repeat match goal with
  | H : (if ?b then _ else false) = true |- _ => let E := fresh "E" in destruct b eqn:E; [|discriminate]
  | H : teqb _ _ = true |- _ => apply teqb_eq in H
  | H : beqb _ _ = true |- _ => apply beqb_eq in H
  | H : ceqb _ _ = true |- _ => apply ceqb_eq in H
  | H : leqb _ _ = true |- _ => apply leqb_eq in H
  | H : fn1_eqb _ _ = true |- _ => apply fn1_eqb_eq in H
  | H : Pos.eqb _ _ = true |- _ => apply Pos.eqb_eq in H
  end.
Lemma deqb_eq d e : deqb d e = true -> d = e.
Proof. destruct d, e; simpl; intros H; try discriminate; try reflexivity; eqb_split; congruence. Qed.

(** ** Denotations *)
Definition valuation := aid -> option R.

Fixpoint mden (rho : valuation) (m : mono) : option R :=
  match m with
  | [] => Some 1
  | (a, e) :: m =>
      match rho a with
      | Some x =>
          match qpow x e, mden rho m with
          | Some u, Some v => Some (u * v)
          | _, _ => None
          end
      | None => None
      end
  end.
Definition tden (rho : valuation) (t : term) : option R :=
  match mden rho (snd t) with Some v => Some (Q2R (fst t) * v) | None => None end.
Fixpoint lden (rho : valuation) (l : list term) : option R :=
  match l with
  | [] => Some 0
  | t :: l =>
      match tden rho t, lden rho l with
      | Some u, Some v => Some (u + v)
      | _, _ => None
      end
  end.
Definition tcond (f : R -> bool) (o : option R) : option bool :=
  match o with Some x => Some (f x) | None => None end.
Fixpoint cden (rho : valuation) (c : cond) : option bool :=
  match c with
  | CTrue => Some true
  | CFalse => Some false
  | CGe0 t => tcond (fun x => Rleb 0 x) (tden rho t)
  | CGt0 t => tcond (fun x => Rltb 0 x) (tden rho t)
  | CEq0 t => tcond (fun x => Reqb x 0) (tden rho t)
  | COr a b => match cden rho a, cden rho b with Some x, Some y => Some (orb x y) | _, _ => None end
  | CAnd a b => match cden rho a, cden rho b with Some x, Some y => Some (andb x y) | _, _ => None end
  end.

Section Den.
Variable I : interp.
Variable B : attrs.

Definition obind {A C} (o : option A) (f : A -> option C) : option C :=
  match o with Some a => f a | None => None end.

Definition dden (rho : valuation) (d : def) : option R :=
  match d with
  | DVar x => B x
  | DPi => Some PI
  | DInt p => Some (IZR (Zpos p))
  | DSum l => lden rho l
  | DFn1 f t => obind (tden rho t) (fn1_sem I f)
  | DFn2 f t u => obind (tden rho t) (fun x => obind (tden rho u) (fun y => op2 I f x y))
  | DFn3 f t u w =>
      obind (tden rho t) (fun x => obind (tden rho u) (fun y => obind (tden rho w) (fun z => op3 I f x y z)))
  | DPow t u => obind (tden rho t) (fun x => obind (tden rho u) (fun y => pypow x y))
  | DIte c t u => match cden rho c with Some true => tden rho t | Some false => tden rho u | None => None end
  | DVal t => tden rho t
  end.

Definition fholds (f : flag) (x : R) : Prop :=
  match f with FU => True | FN => 0 <= x | FP => 0 < x end.

Definition consistent (rho : valuation) (t : tbl) : Prop :=
  forall a d f, lookup t a = Some (d, f) ->
    rho a = dden rho d /\ (forall v, rho a = Some v -> fholds f v).
Definition ext (t t' : tbl) : Prop := forall a x, lookup t a = Some x -> lookup t' a = Some x.

Lemma ext_refl t : ext t t.
Proof. intros a x H; exact H. Qed.
Lemma ext_trans t u v : ext t u -> ext u v -> ext t v.
Proof. intros H K a x E. apply K, H, E. Qed.
Lemma consistent_ext rho t t' : ext t t' -> consistent rho t' -> consistent rho t.
Proof. intros H K a d f E. apply K, H, E. Qed.

(** ** Pure operations *)
Section Pure.
Variable rho : valuation.
Variable t : tbl.
Hypothesis Hc : consistent rho t.

Ltac odestruct :=
  repeat match goal with
  | H : match ?o with Some _ => _ | None => None end = Some _ |- _ =>
      let E := fresh "E" in destruct o eqn:E; [|discriminate]
  end.

Lemma mden_cons a e m v :
  mden rho ((a, e) :: m) = Some v <->
  exists x u w, rho a = Some x /\ qpow x e = Some u /\ mden rho m = Some w /\ v = u * w.
Proof.
  simpl. split.
  - intros H. odestruct. injection H as <-. eauto 10.
  - intros (x & u & w & -> & -> & -> & ->). reflexivity.
Qed.
Lemma tden_inv c m v : tden rho (c, m) = Some v <-> exists u, mden rho m = Some u /\ v = Q2R c * u.
Proof.
  unfold tden; simpl. split.
  - intros H. odestruct. injection H as <-. eauto.
  - intros (u & -> & ->). reflexivity.
Qed.
Lemma tden_zero : tden rho tzero = Some 0.
Proof. unfold tden, tzero; simpl. rewrite Q2R_q0. f_equal; lra. Qed.
Lemma tden_one : tden rho tone = Some 1.
Proof. unfold tden, tone; simpl. rewrite Q2R_q1. f_equal; lra. Qed.
Lemma tden_atom a : tden rho (q1, [(a, q1)]) = rho a.
Proof.
  unfold tden; simpl. destruct (rho a) as [x|]; [|reflexivity].
  change q1 with 1%Q. rewrite qpow_1, Q2R_1. f_equal; lra.
Qed.
Lemma tden_single a e : tden rho (q1, [(a, e)]) = obind (rho a) (fun x => qpow x e).
Proof.
  unfold tden; simpl. destruct (rho a) as [x|]; [|reflexivity]. simpl.
  destruct (qpow x e) as [u|]; [|reflexivity]. change q1 with 1%Q. rewrite Q2R_1. f_equal; lra.
Qed.

Lemma mmul_nil_r m : mmul m [] = m.
Proof. destruct m as [|[a e] m]; reflexivity. Qed.
Lemma mmul_sound m n u v :
  mden rho m = Some u -> mden rho n = Some v -> mden rho (mmul m n) = Some (u * v).
Proof.
  revert n u v; induction m as [|[a e] m IH]; intros n u v Hm Hn.
  - simpl in Hm. injection Hm as <-. simpl. rewrite Hn. f_equal; lra.
  - revert v Hn. induction n as [|[b f] n IHn]; intros v Hn.
    + simpl in Hn. injection Hn as <-. rewrite mmul_nil_r, Hm. f_equal; lra.
    + pose proof Hm as Hm0. pose proof Hn as Hn0.
      apply mden_cons in Hm. destruct Hm as (x & p & w & Hx & Hp & Hw & ->).
      apply mden_cons in Hn. destruct Hn as (y & q & z & Hy & Hq & Hz & ->).
      cbn [mmul]. destruct (Pos.compare_spec a b) as [E|E|E].
      * subst b. rewrite Hx in Hy. injection Hy as <-.
        pose proof (qpow_add x e f p q Hp Hq) as Hpq.
        rewrite <- (qpow_compat _ _ _ (qadd_Qeq e f)) in Hpq.
        pose proof (IH n w z Hw Hz) as Hr.
        destruct (qis0 (qadd e f)) eqn:E0.
        -- rewrite Hr. apply qis0_Qeq in E0.
           rewrite (qpow_compat _ _ _ E0), qpow_0 in Hpq. injection Hpq as Hpq.
           f_equal. transitivity ((p * q) * (w * z)); [rewrite <- Hpq; lra|ring].
        -- apply mden_cons. exists x, (p * q), (w * z). repeat split; auto. ring.
      * apply mden_cons. exists x, p, (w * (q * z)). repeat split; auto.
        ring.
      * fold (mmul ((a, e) :: m)). apply mden_cons.
        exists y, q, ((p * w) * z). repeat split; auto. ring.
Qed.

Lemma mfix_sound m u :
  mden rho m = Some u ->
  exists v, mden rho (snd (mfix t m)) = Some v /\ u = Q2R (fst (mfix t m)) * v.
Proof.
  revert u; induction m as [|[a e] m IH]; intros u Hm.
  - simpl in *. injection Hm as <-. exists 1. split; [reflexivity|]. rewrite Q2R_q1; lra.
  - apply mden_cons in Hm. destruct Hm as (x & p & w & Hx & Hp & Hw & ->).
    destruct (IH w Hw) as (v & Hv & ->). clear IH. cbn [mfix].
    destruct (mfix t m) as [c m'] eqn:Em. cbn [fst snd] in *.
    assert (Hdef : exists v0, mden rho (snd (c, (a, e) :: m')) = Some v0 /\
                   p * (Q2R c * v) = Q2R (fst (c, (a, e) :: m')) * v0).
    { exists (p * v). split; [apply mden_cons; eauto 10|cbn [fst]; ring]. }
    destruct (lookup t a) as [[d fl]|] eqn:El; [|exact Hdef].
    destruct d; try exact Hdef.
    destruct (Hc _ _ _ El) as [Ha _]. rewrite Ha in Hx. simpl in Hx. injection Hx as <-.
    set (k := Qfloor e).
    assert (Hk : exists p', qpow (IZR (Zpos p0)) (qsub e (k # 1)) = Some p' /\ p = Q2R (qpowz p0 k) * p').
    { pose proof (qpowz_qpow p0 k) as Hz.
      assert (Hnz : IZR (Zpos p0) <> 0) by (apply not_0_IZR; discriminate).
      pose proof (qpow_sub _ _ _ _ _ Hp Hz Hnz) as Hs.
      rewrite <- (qpow_compat _ _ _ (qsub_Qeq e (k # 1))) in Hs.
      eexists; split; [exact Hs|]. field.
      apply (qpow_nz _ _ _ Hz Hnz). }
    destruct Hk as (p' & Hp' & ->).
    assert (Hgo : exists v0, mden rho (snd (qmul c (qpowz p0 k),
                    if qis0 (qsub e (k # 1)) then m' else (a, qsub e (k # 1)) :: m')) = Some v0 /\
                   Q2R (qpowz p0 k) * p' * (Q2R c * v) = Q2R (qmul c (qpowz p0 k)) * v0).
    { cbn [snd]. destruct (qis0 (qsub e (k # 1))) eqn:E0.
      - apply qis0_Qeq in E0. rewrite (qpow_compat _ _ _ E0), qpow_0 in Hp'. injection Hp' as <-.
        exists v. split; [exact Hv|]. rewrite Q2R_qmul; ring.
      - exists (p' * v). split; [|rewrite Q2R_qmul; ring].
        apply mden_cons. exists (IZR (Zpos p0)), p', v. auto. }
    destruct k; [exact Hdef|exact Hgo|exact Hgo].
Qed.

Lemma tmk_sound c m u : mden rho m = Some u -> tden rho (tmk t c m) = Some (Q2R c * u).
Proof.
  intros H. unfold tmk. destruct (qis0 c) eqn:E.
  - rewrite tden_zero, (qis0_true _ E). f_equal; lra.
  - destruct (mfix_sound m u H) as (v & Hv & ->). destruct (mfix t m) as [k m']. simpl in *.
    apply tden_inv. exists v. split; [exact Hv|]. rewrite Q2R_qmul; ring.
Qed.
Lemma tmul_sound v w x y :
  tden rho v = Some x -> tden rho w = Some y -> tden rho (tmul t v w) = Some (x * y).
Proof.
  destruct v as [c m], w as [d n]. intros Hv Hw.
  apply tden_inv in Hv. destruct Hv as (a & Ha & ->).
  apply tden_inv in Hw. destruct Hw as (b & Hb & ->).
  unfold tmul; simpl.
  destruct (qis0 c) eqn:Ec. { rewrite tden_zero, (qis0_true _ Ec). f_equal; ring. }
  destruct (qis0 d) eqn:Ed. { rewrite tden_zero, (qis0_true _ Ed). f_equal; ring. }
  rewrite (tmk_sound _ _ _ (mmul_sound _ _ _ _ Ha Hb)), Q2R_qmul. f_equal; ring.
Qed.
Lemma tscale_sound c v x : tden rho v = Some x -> tden rho (tscale c v) = Some (Q2R c * x).
Proof.
  destruct v as [d m]. intros H. apply tden_inv in H. destruct H as (u & Hu & ->).
  unfold tscale; simpl.
  destruct (qis0 c) eqn:Ec. { rewrite tden_zero, (qis0_true _ Ec). f_equal; ring. }
  destruct (qis0 d) eqn:Ed. { rewrite tden_zero, (qis0_true _ Ed). f_equal; ring. }
  apply tden_inv. exists u. split; [exact Hu|]. rewrite Q2R_qmul; ring.
Qed.
Lemma tneg_sound v x : tden rho v = Some x -> tden rho (tneg v) = Some (- x).
Proof.
  destruct v as [d m]. intros H. apply tden_inv in H. destruct H as (u & Hu & ->).
  apply tden_inv. exists u. split; [exact Hu|]. simpl. rewrite Q2R_qopp; ring.
Qed.
Lemma mopp_sound m u : mden rho m = Some u -> u <> 0 -> mden rho (mopp m) = Some (/ u).
Proof.
  revert u; induction m as [|[a e] m IH]; intros u H Hu.
  - simpl in *. injection H as <-. f_equal; lra.
  - apply mden_cons in H. destruct H as (x & p & w & Hx & Hp & Hw & ->).
    assert (p <> 0) by (intros ->; apply Hu; ring).
    assert (w <> 0) by (intros ->; apply Hu; ring).
    change (mopp ((a, e) :: m)) with ((a, qopp e) :: mopp m).
    apply mden_cons. exists x, (/ p), (/ w). repeat split; auto.
    + apply qpow_opp; assumption.
    + field; auto.
Qed.
Lemma tinv_sound v x : tden rho v = Some x -> x <> 0 -> tden rho (tinv t v) = Some (/ x).
Proof.
  destruct v as [d m]. intros H Hx. apply tden_inv in H. destruct H as (u & Hu & ->).
  assert (u <> 0) by (intros ->; apply Hx; ring).
  assert (Hd : Q2R d <> 0) by (intros E; apply Hx; rewrite E; ring).
  unfold tinv; simpl. destruct (qis0 d) eqn:Ed; [apply qis0_true in Ed; contradiction|].
  rewrite (tmk_sound _ _ _ (mopp_sound _ _ Hu H)), Q2R_qinv by exact Hd.
  f_equal; field; auto.
Qed.

(** Scaling of exponents. *)
Lemma mden_nonneg m u :
  mden rho m = Some u ->
  (forall a e, In (a, e) m -> forall x, rho a = Some x -> 0 <= x) -> 0 <= u.
Proof.
  revert u; induction m as [|[a e] m IH]; intros u H Hn.
  - simpl in H. injection H as <-. lra.
  - apply mden_cons in H. destruct H as (x & p & w & Hx & Hp & Hw & ->).
    apply Rmult_le_pos.
    + apply (qpow_nonneg x e); [|exact Hp]. apply (Hn a e); [left; reflexivity|exact Hx].
    + apply IH; [exact Hw|]. intros b f Hin. apply (Hn b f). right; exact Hin.
Qed.
Lemma mscale_sound q m u w :
  mden rho m = Some u -> qpow u q = Some w ->
  (qodd q = true \/ (forall a e, In (a, e) m -> forall x, rho a = Some x -> 0 <= x)) ->
  mden rho (mscale q m) = Some w.
Proof.
  revert u w; induction m as [|[a e] m IH]; intros u w H Hq Hs.
  - simpl in *. injection H as <-. unfold qpow in Hq. destruct (Rlt_dec 0 1); [|lra].
    rewrite Rpower_1_l in Hq. exact Hq.
  - apply mden_cons in H. destruct H as (x & p & z & Hx & Hp & Hz & ->).
    destruct (qpow_mult p z q w Hq) as (c & d & Hcq & Hdq & ->).
    { destruct Hs as [Hs|Hs]; [left; exact Hs|right]. split.
      - apply (qpow_nonneg x e); [|exact Hp]. apply (Hs a e); [left; reflexivity|exact Hx].
      - apply (mden_nonneg m); [exact Hz|]. intros b f Hin. apply (Hs b f). right; exact Hin. }
    change (mscale q ((a, e) :: m)) with ((a, qmul e q) :: mscale q m).
    apply mden_cons. exists x, c, d. repeat split; auto.
    + rewrite (qpow_compat _ _ _ (qmul_Qeq e q)).
      apply (qpow_mul x e q p c Hp Hcq).
      destruct Hs as [Hs|Hs]; [left; exact Hs|right]. apply (Hs a e); [left; reflexivity|exact Hx].
    + apply (IH z d Hz Hdq). destruct Hs as [Hs|Hs]; [left; exact Hs|right].
      intros b f Hin. apply (Hs b f). right; exact Hin.
Qed.
Lemma qodd_int z : qodd (z # 1) = true.
Proof. apply (parity_rep (z # 1) z 1); reflexivity. Qed.
Lemma qpow_posn x n : qpow x (Zpos n # 1) = Some (x ^ Pos.to_nat n).
Proof.
  destruct (Pos2Nat.is_succ n) as [k Hk]. rewrite Hk, <- qpow_pow. do 2 f_equal. lia.
Qed.
Lemma tpowi_sound v x n : tden rho v = Some x -> tden rho (tpowi t v n) = Some (x ^ Pos.to_nat n).
Proof.
  destruct v as [c m]. intros H. apply tden_inv in H. destruct H as (u & Hu & ->).
  unfold tpowi; simpl.
  rewrite (tmk_sound _ _ (u ^ Pos.to_nat n)).
  - rewrite Q2R_qpown, Rpow_mult_distr. reflexivity.
  - apply (mscale_sound _ _ u); [exact Hu|apply qpow_posn|left; apply qodd_int].
Qed.

(** Sums. *)
Lemma lden_cons v l x : lden rho (v :: l) = Some x <->
  exists a b, tden rho v = Some a /\ lden rho l = Some b /\ x = a + b.
Proof.
  simpl. split.
  - intros H. odestruct. injection H as <-. eauto.
  - intros (a & b & -> & -> & ->). reflexivity.
Qed.
Lemma ladd_nil_r l : ladd l [] = l.
Proof. destruct l as [|[c m] l]; reflexivity. Qed.
Lemma ladd_sound l k x y :
  lden rho l = Some x -> lden rho k = Some y -> lden rho (ladd l k) = Some (x + y).
Proof.
  revert k x y; induction l as [|[c m] l IH]; intros k x y Hl Hk.
  - simpl in Hl. injection Hl as <-. simpl. rewrite Hk. f_equal; lra.
  - revert y Hk. induction k as [|[d n] k IHk]; intros y Hk.
    + simpl in Hk. injection Hk as <-. rewrite ladd_nil_r, Hl. f_equal; lra.
    + pose proof Hl as Hl0. pose proof Hk as Hk0.
      apply lden_cons in Hl. destruct Hl as (a & b & Ha & Hb & ->).
      apply lden_cons in Hk. destruct Hk as (a' & b' & Ha' & Hb' & ->).
      cbn [ladd]. destruct (mcmp m n).
      * destruct (meqb m n) eqn:Em.
        -- apply meqb_eq in Em. subst n.
           apply tden_inv in Ha. destruct Ha as (u & Hu & ->).
           apply tden_inv in Ha'. destruct Ha' as (u' & Hu' & ->).
           rewrite Hu in Hu'. injection Hu' as <-.
           pose proof (IH k b b' Hb Hb') as Hr.
           destruct (qis0 (qadd c d)) eqn:E0.
           ++ rewrite Hr. apply qis0_true in E0. rewrite Q2R_qadd in E0. f_equal.
              transitivity ((Q2R c + Q2R d) * u + (b + b')); [rewrite E0; ring|ring].
           ++ apply lden_cons. exists (Q2R (qadd c d) * u), (b + b'). repeat split; auto.
              ** apply tden_inv. eauto.
              ** rewrite Q2R_qadd; ring.
        -- apply lden_cons. exists a, (b + (a' + b')). repeat split; auto; ring.
      * apply lden_cons. exists a, (b + (a' + b')). repeat split; auto; ring.
      * fold (ladd ((c, m) :: l)). apply lden_cons.
        exists a', ((a + b) + b'). repeat split; auto; ring.
Qed.
Lemma lsort_sound l x : lden rho l = Some x -> lden rho (lsort l) = Some x.
Proof.
  revert x; induction l as [|v l IH]; intros x H; [exact H|].
  apply lden_cons in H. destruct H as (a & b & Ha & Hb & ->).
  change (lsort (v :: l)) with (ladd [v] (lsort l)).
  apply ladd_sound; [|apply IH, Hb]. apply lden_cons. exists a, 0. repeat split; auto. ring.
Qed.
Lemma lden_scale c l x : lden rho l = Some x -> lden rho (map (tscale c) l) = Some (Q2R c * x).
Proof.
  revert x; induction l as [|v l IH]; intros x H.
  - simpl in *. injection H as <-. f_equal; ring.
  - apply lden_cons in H. destruct H as (a & b & Ha & Hb & ->). cbn [map].
    apply lden_cons. exists (Q2R c * a), (Q2R c * b). repeat split.
    + apply tscale_sound, Ha.
    + apply IH, Hb.
    + ring.
Qed.
Lemma lden_qscale c l x :
  lden rho l = Some x -> lden rho (map (fun v => (qmul c (fst v), snd v)) l) = Some (Q2R c * x).
Proof.
  revert x; induction l as [|[d m] l IH]; intros x H.
  - simpl in *. injection H as <-. f_equal; ring.
  - apply lden_cons in H. destruct H as (a & b & Ha & Hb & ->). cbn [map].
    apply tden_inv in Ha. destruct Ha as (u & Hu & ->).
    apply lden_cons. exists (Q2R c * (Q2R d * u)), (Q2R c * b). repeat split.
    + apply tden_inv. exists u. simpl. split; [exact Hu|]. rewrite Q2R_qmul; ring.
    + apply IH, Hb.
    + ring.
Qed.
Lemma lden_app l k x y : lden rho l = Some x -> lden rho k = Some y -> lden rho (l ++ k) = Some (x + y).
Proof.
  revert x; induction l as [|v l IH]; intros x Hl Hk.
  - simpl in *. injection Hl as <-. rewrite Hk. f_equal; ring.
  - apply lden_cons in Hl. destruct Hl as (a & b & Ha & Hb & ->). cbn [app].
    apply lden_cons. exists a, (b + y). repeat split; auto. ring.
Qed.
Lemma lden_neg l x : lden rho l = Some x -> lden rho (map tneg l) = Some (- x).
Proof.
  revert x; induction l as [|v l IH]; intros x H.
  - simpl in *. injection H as <-. f_equal; ring.
  - apply lden_cons in H. destruct H as (a & b & Ha & Hb & ->). cbn [map].
    apply lden_cons. exists (- a), (- b). repeat split; [apply tneg_sound, Ha|apply IH, Hb|ring].
Qed.
Lemma lden_filter l x : lden rho l = Some x -> lden rho (filter (fun v => negb (tis0 v)) l) = Some x.
Proof.
  revert x; induction l as [|[c m] l IH]; intros x H; [exact H|].
  apply lden_cons in H. destruct H as (a & b & Ha & Hb & ->). simpl.
  unfold tis0 at 1; simpl. destruct (qis0 c) eqn:E; simpl.
  - rewrite (IH b Hb). apply tden_inv in Ha. destruct Ha as (u & _ & ->).
    rewrite (qis0_true _ E). f_equal; ring.
  - rewrite Ha, (IH b Hb). reflexivity.
Qed.

(** Expansion. *)
Lemma pick_sum_sound m l r u :
  pick_sum t m = Some (l, r) -> mden rho m = Some u ->
  exists x y, lden rho l = Some x /\ mden rho r = Some y /\ u = x * y.
Proof.
  revert l r u; induction m as [|[a e] m IH]; intros l r u H Hm; [discriminate|].
  apply mden_cons in Hm. destruct Hm as (x & p & w & Hx & Hp & Hw & ->).
  cbn [pick_sum] in H.
  assert (Hrec : match pick_sum t m with Some (l, r) => Some (l, (a, e) :: r) | None => None end = Some (l, r) ->
                 exists x y, lden rho l = Some x /\ mden rho r = Some y /\ p * w = x * y).
  { destruct (pick_sum t m) as [[l' r']|]; [|discriminate]. intros E. injection E as <- <-.
    destruct (IH l' r' w eq_refl Hw) as (y & z & Hy & Hz & ->).
    exists y, (p * z). repeat split; auto; try ring; apply mden_cons; eauto 10. }
  destruct (lookup t a) as [[d fl]|] eqn:El; [|apply Hrec, H].
  destruct d; try (apply Hrec, H).
  destruct (qint e) as [[|n|n]|] eqn:Eq; try (apply Hrec, H).
  injection H as <- <-. clear Hrec.
  destruct (Hc _ _ _ El) as [Ha _]. rewrite Hx in Ha. simpl in Ha.
  apply qint_eq in Eq. subst e. rewrite qpow_posn in Hp. injection Hp as <-.
  destruct (Pos.eq_dec n 1) as [->|Hn].
  - exists x, w. repeat split; auto. simpl. ring.
  - exists x, (x ^ Pos.to_nat (Pos.pred n) * w). repeat split; [auto| |].
    + assert (Hr : mden rho ((a, Zpos (Pos.pred n) # 1) :: m) = Some (x ^ Pos.to_nat (Pos.pred n) * w)).
      { apply mden_cons. exists x, (x ^ Pos.to_nat (Pos.pred n)), w. repeat split; auto. apply qpow_posn. }
      destruct n; [exact Hr|exact Hr|contradiction Hn; reflexivity].
    + replace (Pos.to_nat n) with (S (Pos.to_nat (Pos.pred n))) by lia. simpl. ring.
Qed.

Lemma pick_flat_sound m l r u :
  pick_flat t m = Some (l, r) -> mden rho m = Some u ->
  exists x y, lden rho l = Some x /\ mden rho r = Some y /\ u = x * y.
Proof.
  revert l r u; induction m as [|[a e] m IH]; intros l r u H Hm; [discriminate|].
  apply mden_cons in Hm. destruct Hm as (x & p & w & Hx & Hp & Hw & ->).
  cbn [pick_flat] in H. destruct (pick_flat t m) as [[l' r']|].
  - injection H as <- <-. destruct (IH l' r' w eq_refl Hw) as (y & z & Hy & Hz & ->).
    exists y, (p * z). repeat split; auto; try ring; apply mden_cons; eauto 10.
  - destruct (lookup t a) as [[d fl]|] eqn:El; [|discriminate].
    destruct d; try discriminate. destruct (qeqb e q1) eqn:Ee; [|discriminate].
    injection H as <- <-. apply qeqb_eq in Ee. subst e.
    destruct (Hc _ _ _ El) as [Ha _]. rewrite Hx in Ha. simpl in Ha.
    change q1 with 1%Q in Hp. rewrite qpow_1 in Hp. injection Hp as <-.
    exists x, w. repeat split; auto.
Qed.
Lemma lden_tmul c r k z y : mden rho r = Some z -> lden rho k = Some y ->
  lden rho (map (tmul t (c, r)) k) = Some (Q2R c * (y * z)).
Proof.
  intros Hz. revert y; induction k as [|v k IH]; intros y Hy.
  - simpl in *. injection Hy as <-. f_equal; ring.
  - apply lden_cons in Hy. destruct Hy as (a & b & Ha & Hb & ->). cbn [map]. apply lden_cons.
    exists (Q2R c * z * a), (Q2R c * (b * z)). repeat split; [|apply IH, Hb|ring].
    apply tmul_sound; [|exact Ha]. apply tden_inv. eauto.
Qed.

Lemma expand_sound cfg n force v l x :
  expand cfg n t force v = Some l -> tden rho v = Some x -> lden rho l = Some x.
Proof.
  revert force v l x; induction n as [|n IH]; intros force v l x H Hv; [discriminate|].
  cbn [expand] in H. unfold tis0 in H. destruct (qis0 (fst v)) eqn:E0.
  { injection H as <-. destruct v as [c m]. apply tden_inv in Hv. destruct Hv as (u & _ & ->).
    simpl in *. rewrite (qis0_true _ E0). f_equal; ring. }
  assert (Hsingle : lden rho [v] = Some x).
  { apply lden_cons. exists x, 0. repeat split; auto. ring. }
  destruct v as [c m]. cbn [fst snd] in *.
  destruct (flat cfg).
  { destruct (pick_flat t m) as [[k r]|] eqn:Ep; [|injection H as <-; exact Hsingle]. injection H as <-.
    apply tden_inv in Hv. destruct Hv as (u & Hu & ->).
    destruct (pick_flat_sound m k r u Ep Hu) as (y & z & Hy & Hz & ->). apply lden_tmul; assumption. }
  destruct (pick_sum t m) as [[k r]|] eqn:Ep; [|injection H as <-; exact Hsingle].
  apply tden_inv in Hv. destruct Hv as (u & Hu & ->).
  destruct (pick_sum_sound m k r u Ep Hu) as (y & z & Hy & Hz & ->).
  assert (Hgo : fold_right
                (fun u acc =>
                   match acc, expand cfg n t true (tmul t (c, r) u) with
                   | Some acc, Some k => Some (ladd k acc)
                   | _, _ => None
                   end) (Some []) k = Some l -> lden rho l = Some (Q2R c * (y * z))).
  { clear H Ep Hsingle Hu. revert l y Hy. induction k as [|v k IHk]; intros l y Hy H.
    - simpl in H. injection H as <-. simpl in *. injection Hy as <-. f_equal; ring.
    - apply lden_cons in Hy. destruct Hy as (a & b & Ha & Hb & ->).
      cbn [fold_right] in H.
      match type of H with match ?o with Some _ => _ | None => None end = _ => destruct o as [acc|] eqn:Ea; [|discriminate] end.
      destruct (expand cfg n t true (tmul t (c, r) v)) as [k'|] eqn:Ex; [|discriminate].
      injection H as <-.
      assert (Hm : tden rho (tmul t (c, r) v) = Some (Q2R c * z * a)).
      { apply tmul_sound; [|exact Ha]. apply tden_inv. eauto. }
      pose proof (IH _ _ _ _ Ex Hm) as H1.
      pose proof (ladd_sound k' acc _ _ H1 (IHk acc b Hb eq_refl)) as H2.
      rewrite H2. f_equal; ring. }
  destruct r as [|p r].
  - injection H as <-. simpl in Hz. injection Hz as <-.
    rewrite (lden_scale c k y Hy). f_equal; ring.
  - destruct (orb force _); [apply Hgo, H|injection H as <-; exact Hsingle].
Qed.
Lemma expand_all_sound cfg vs l x :
  expand_all cfg t vs = Some l -> lden rho vs = Some x -> lden rho l = Some x.
Proof.
  revert l x; induction vs as [|v vs IH]; intros l x H Hv.
  - simpl in *. injection H as <-. exact Hv.
  - cbn [expand_all] in H.
    destruct (expand cfg 60 t false v) as [k|] eqn:Ek; [|discriminate].
    destruct (expand_all cfg t vs) as [k'|] eqn:Ek'; [|discriminate]. injection H as <-.
    apply lden_cons in Hv. destruct Hv as (a & b & Ha & Hb & ->).
    apply ladd_sound; [|apply IH; auto].
    apply lsort_sound. eapply expand_sound; eauto.
Qed.

(** Common factors. *)
Lemma mexp_split m a e u :
  mexp m a = Some e -> mden rho m = Some u ->
  exists x p, rho a = Some x /\ qpow x e = Some p.
Proof.
  revert u; induction m as [|[b f] m IH]; intros u H Hm; [discriminate|].
  apply mden_cons in Hm. destruct Hm as (x & p & w & Hx & Hp & Hw & ->). simpl in H.
  destruct (Pos.eqb a b) eqn:E.
  - apply Pos.eqb_eq in E. subst b. injection H as <-. eauto.
  - eapply IH; eauto.
Qed.
(** Condition under which [x^e / x^k] is a power again. *)
Definition divides (x : R) (e k : Q) : Prop :=
  forall u, qpow x e = Some u -> exists v w, qpow x k = Some v /\ qpow x (e - k) = Some w /\ u = v * w.

Lemma existsb_mexp_false m a : existsb (fun p => Pos.eqb a (fst p)) m = false -> mexp m a = None.
Proof.
  induction m as [|[b f] m IH]; simpl; [reflexivity|].
  intros H. apply orb_false_iff in H. destruct H as [H1 H2]. rewrite H1. auto.
Qed.
Lemma existsb_mexp_true m a : existsb (fun p => Pos.eqb a (fst p)) m = true -> exists e, mexp m a = Some e.
Proof.
  induction m as [|[b f] m IH]; simpl; [discriminate|].
  intros H. destruct (Pos.eqb a b); [eauto|]. apply IH, H.
Qed.
(** [a] occurs with exponent [e], and x^k divides x^e. *)
Lemma msub_present m a e k u x v :
  mexp m a = Some e -> rho a = Some x -> qpow x k = Some v -> divides x e k ->
  mden rho m = Some u -> exists w, mden rho (msub m a k) = Some w /\ u = v * w.
Proof.
  intros He Hx Hv Hd. revert u. induction m as [|[b f] m IH]; intros u Hm; [discriminate|].
  apply mden_cons in Hm. destruct Hm as (y & p & w & Hy & Hp & Hw & ->).
  simpl in He.
  destruct (Pos.eqb a b) eqn:Eab.
  - apply Pos.eqb_eq in Eab. subst b. injection He as ->.
    rewrite Hx in Hy. injection Hy as <-. cbn [msub]. rewrite Pos.compare_refl.
    destruct (Hd p Hp) as (v' & z & Hv' & Hz & ->). rewrite Hv in Hv'. injection Hv' as <-.
    rewrite <- (qpow_compat _ _ _ (qsub_Qeq e k)) in Hz.
    destruct (qis0 (qsub e k)) eqn:E0.
    + apply qis0_Qeq in E0. rewrite (qpow_compat _ _ _ E0), qpow_0 in Hz. injection Hz as <-.
      exists w. split; [exact Hw|ring].
    + exists (z * w). split; [|ring]. apply mden_cons. exists x, z, w. auto.
  - destruct (IH He w Hw) as (z & Hz & ->).
    assert (Hdef : exists w0, mden rho ((b, f) :: msub m a k) = Some w0 /\ p * (v * z) = v * w0).
    { exists (p * z). split; [|ring]. apply mden_cons. eauto 10. }
    cbn [msub]. destruct (Pos.compare_spec a b) as [E|E|E]; [subst; rewrite Pos.eqb_refl in Eab; discriminate| |exact Hdef].
    destruct (existsb (fun p => Pos.eqb a (fst p)) m) eqn:Ex; [exact Hdef|].
    rewrite (existsb_mexp_false _ _ Ex) in He. discriminate.
Qed.
(** [x] is non-zero. *)
Lemma msub_nz m a k u x v :
  rho a = Some x -> qpow x k = Some v -> x <> 0 ->
  mden rho m = Some u -> exists w, mden rho (msub m a k) = Some w /\ u = v * w.
Proof.
  intros Hx Hv Hnz Hm.
  pose proof (qpow_nz x k v Hv Hnz) as Hvz.
  assert (Hdiv : forall e, divides x e k).
  { intros e p Hp. exists v, (p / v). split; [exact Hv|]. split; [|field; exact Hvz].
    apply qpow_sub; assumption. }
  destruct (mexp m a) as [e|] eqn:He.
  { eapply msub_present; eauto. }
  revert u Hm He. induction m as [|[b f] m IH]; intros u Hm He.
  - cbn [msub]. simpl in Hm. injection Hm as <-. exists (/ v * 1). split; [|field; exact Hvz].
    apply mden_cons. exists x, (/ v), 1. repeat split; auto. apply qpow_opp; assumption.
  - simpl in He. destruct (Pos.eqb a b) eqn:Eab; [discriminate|].
    pose proof Hm as Hm0.
    apply mden_cons in Hm. destruct Hm as (y & p & w & Hy & Hp & Hw & ->).
    destruct (IH w Hw He) as (z & Hz & ->).
    assert (Hdef : exists w0, mden rho ((b, f) :: msub m a k) = Some w0 /\ p * (v * z) = v * w0).
    { exists (p * z). split; [|ring]. apply mden_cons. eauto 10. }
    cbn [msub]. destruct (Pos.compare_spec a b) as [E|E|E]; [subst; rewrite Pos.eqb_refl in Eab; discriminate| |exact Hdef].
    destruct (existsb (fun p => Pos.eqb a (fst p)) m) eqn:Ex; [exact Hdef|].
    exists (/ v * (p * (v * z))). split; [|field; exact Hvz].
    apply mden_cons. exists x, (/ v), (p * (v * z)). repeat split; auto. apply qpow_opp; assumption.
Qed.

Lemma divides_nz x e k v : x <> 0 -> qpow x k = Some v -> divides x e k.
Proof.
  intros Hx Hv u Hu. exists v, (u / v). repeat split; [exact Hv| |].
  - apply qpow_sub; assumption.
  - field. apply (qpow_nz x k); assumption.
Qed.
Lemma divides_zero e k : (0 < k)%Q -> (k <= e)%Q -> divides 0 e k.
Proof.
  intros Hk He u Hu.
  assert (0 < e)%Q by (eapply Qlt_le_trans; eauto).
  rewrite qpow_zero in Hu by assumption. injection Hu as <-.
  exists 0. destruct (Qlt_le_dec 0 (e - k)) as [Hl|Hl].
  - exists 0. rewrite !qpow_zero by assumption. repeat split; ring.
  - exists 1. assert (E : (e - k == 0)%Q).
    { apply Qle_antisym; [exact Hl|]. apply (Qplus_le_l _ _ k). ring_simplify. exact He. }
    rewrite (qpow_compat _ _ _ E), qpow_0, qpow_zero by assumption. repeat split; ring.
Qed.
Lemma divides_le x e k v : (0 < k)%Q -> (k <= e)%Q -> qpow x k = Some v -> divides x e k.
Proof.
  intros Hk He Hv. destruct (Req_EM_T x 0) as [->|Hx].
  - apply divides_zero; assumption.
  - eapply divides_nz; eauto.
Qed.
Lemma divides_ok x e k : div_ok e k = true -> divides x e k.
Proof.
  unfold div_ok. rewrite andb_true_iff, orb_true_iff, orb_true_iff, !andb_true_iff, negb_true_iff.
  intros [Hs Ho].
  destruct (Req_EM_T x 0) as [->|Hx].
  - destruct Hs as [[H1 H2]|[H1 H2]].
    + apply divides_zero; [apply qltb_lt, H1|apply qleb_le, H2].
    + intros u Hu. apply qltb_lt in H1. apply qleb_le in H2.
      exfalso. apply (qpow_neg_nz 0 e u Hu); [|reflexivity].
      eapply Qle_lt_trans; eauto.
  - intros u Hu.
    assert (Hv : exists v, qpow x k = Some v).
    { unfold qpow in *. destruct (Rlt_dec 0 x); [eauto|]. destruct (Req_EM_T x 0); [contradiction|].
      destruct (qodd e) eqn:Eo; [|discriminate]. rewrite (qoddden_eq e), (qoddden_eq k) in Ho. destruct Ho as [->|Ho]; [eauto|congruence]. }
    destruct Hv as [v Hv]. eapply divides_nz; eauto.
Qed.

Lemma lden_in l x v : lden rho l = Some x -> In v l -> exists y, tden rho v = Some y.
Proof.
  revert x; induction l as [|w l IH]; intros x H [].
  - subst. apply lden_cons in H. destruct H as (a & b & Ha & _). eauto.
  - apply lden_cons in H. destruct H as (a & b & _ & Hb & _). eapply IH; eauto.
Qed.
Lemma pull1_sound l a k l' x :
  pull1 l a k = Some l' -> lden rho l = Some x ->
  exists y v z, rho a = Some y /\ qpow y k = Some v /\ lden rho l' = Some z /\ x = v * z.
Proof.
  unfold pull1. intros H Hl.
  match type of H with (if ?b then _ else _) = _ => destruct b eqn:Hcond; [|discriminate] end.
  injection H as <-. apply andb_true_iff in Hcond. destruct Hcond as [Hsgn Hex].
  apply existsb_exists in Hex. destruct Hex as ([c m] & Hin & He). simpl in He.
  destruct (mexp m a) as [e|] eqn:Em; [|discriminate]. apply qeqb_eq in He. subst e.
  destruct (lden_in _ _ _ Hl Hin) as [y0 Hy0].
  apply tden_inv in Hy0. destruct Hy0 as (um & Hum & _).
  destruct (mexp_split _ _ _ _ Em Hum) as (y & v & Hy & Hv).
  exists y, v.
  assert (Hall : exists z, lden rho (map (fun v => (fst v, msub (snd v) a k)) l) = Some z /\ x = v * z).
  { assert (Hone : forall d n u, In (d, n) l -> mden rho n = Some u ->
                   exists w, mden rho (msub n a k) = Some w /\ u = v * w).
    { intros d n u Hin' Hn. destruct (qltb q0 k) eqn:Ek.
      - rewrite forallb_forall in Hsgn. specialize (Hsgn _ Hin'). simpl in Hsgn.
        destruct (mexp n a) as [e|] eqn:En; [|discriminate].
        eapply msub_present; eauto. eapply divides_le; eauto; [apply qltb_lt, Ek|apply qleb_le, Hsgn].
      - eapply msub_nz; eauto. eapply qpow_neg_nz; eauto. apply qltb_lt, Hsgn. }
    clear Hsgn Hin Em Hum. revert x Hl. induction l as [|[d n] l IH]; intros x Hl.
    - simpl in *. injection Hl as <-. exists 0. split; [reflexivity|ring].
    - apply lden_cons in Hl. destruct Hl as (p & q & Hp & Hq & ->).
      apply tden_inv in Hp. destruct Hp as (u & Hu & ->).
      destruct (Hone d n u (or_introl eq_refl) Hu) as (w & Hw & ->).
      destruct (IH (fun d n u Hin => Hone d n u (or_intror Hin)) q Hq) as (z & Hz & ->).
      exists (Q2R d * w + z). split; [|ring]. cbn [map]. apply lden_cons.
      exists (Q2R d * w), z. repeat split; auto. apply tden_inv. simpl. eauto. }
  destruct Hall as (z & Hz & ->). eauto 10.
Qed.
Lemma pull_sound g l l' x :
  pull l g = Some l' -> lden rho l = Some x ->
  exists u z, mden rho g = Some u /\ lden rho l' = Some z /\ x = u * z.
Proof.
  revert l x; induction g as [|[a k] g IH]; intros l x H Hl.
  - simpl in H. injection H as <-. exists 1, x. repeat split; auto. ring.
  - cbn [pull] in H. destruct (pull1 l a k) as [l1|] eqn:E; [|discriminate].
    destruct (pull1_sound _ _ _ _ _ E Hl) as (y & v & z & Hy & Hv & Hz & ->).
    destruct (IH _ _ H Hz) as (u & z' & Hu & Hz' & ->).
    exists (v * u), z'. repeat split; auto; try ring; apply mden_cons; eauto 10.
Qed.
Lemma msub_safe_sound m a k m' u :
  msub_safe m a k = Some m' -> mden rho m = Some u ->
  exists y v w, rho a = Some y /\ qpow y k = Some v /\ mden rho m' = Some w /\ u = v * w.
Proof.
  unfold msub_safe. intros H Hm. destruct (mexp m a) as [e|] eqn:Em; [|discriminate].
  destruct (div_ok e k) eqn:Ed; [|discriminate]. injection H as <-.
  destruct (mexp_split _ _ _ _ Em Hm) as (y & p & Hy & Hp).
  pose proof (divides_ok y e k Ed) as Hd.
  destruct (Hd p Hp) as (v & w0 & Hv & _).
  destruct (msub_present m a e k u y v Em Hy Hv Hd Hm) as (w & Hw & ->).
  eauto 10.
Qed.
Lemma msubs_sound g m m' u :
  msubs m g = Some m' -> mden rho m = Some u ->
  exists p w, mden rho g = Some p /\ mden rho m' = Some w /\ u = p * w.
Proof.
  revert m u; induction g as [|[a k] g IH]; intros m u H Hm.
  - simpl in H. injection H as <-. exists 1, u. repeat split; auto. ring.
  - cbn [msubs] in H. destruct (msub_safe m a k) as [m1|] eqn:E; [|discriminate].
    destruct (msub_safe_sound _ _ _ _ _ E Hm) as (y & v & w & Hy & Hv & Hw & ->).
    destruct (IH _ _ H Hw) as (p & w' & Hp & Hw' & ->).
    exists (v * p), w'. repeat split; auto; try ring; apply mden_cons; eauto 10.
Qed.

(** Signs. *)
Lemma fholds_nn f x : fholds f x -> is_nn f = true -> 0 <= x.
Proof. destruct f; simpl; intros; try discriminate; lra. Qed.
Lemma fholds_pos f x : fholds f x -> is_pos f = true -> 0 < x.
Proof. destruct f; simpl; intros; try discriminate; lra. Qed.
Lemma aflag_sound a x : rho a = Some x -> fholds (aflag t a) x.
Proof.
  intros H. unfold aflag. destruct (lookup t a) as [[d f]|] eqn:E; [|exact Logic.I].
  destruct (Hc _ _ _ E) as [_ Hf]. apply Hf, H.
Qed.
Lemma fmin_sound f g x : fholds f x \/ fholds g x -> fholds (fmin f g) x.
Proof. destruct f, g; simpl; intros [?|?]; try exact Logic.I; lra. Qed.
Lemma fholds_mul f g x y : fholds f x -> fholds g y -> fholds (fmin f g) (x * y).
Proof.
  destruct f, g; simpl; intros; try exact Logic.I; try (apply Rmult_le_pos; lra).
  apply Rmult_lt_0_compat; lra.
Qed.
Definition aok (a : aid) : Prop := forall x, rho a = Some x -> fholds (aflag t a) x.
Definition mok (m : mono) : Prop := forall a e, In (a, e) m -> aok a.
Definition lok (l : list term) : Prop := forall v, In v l -> mok (snd v).
Lemma mflag_gen m u : mok m -> mden rho m = Some u -> fholds (mflag t m) u.
Proof.
  revert u; induction m as [|[a e] m IH]; intros u Hok H.
  - simpl in *. injection H as <-. lra.
  - apply mden_cons in H. destruct H as (x & p & w & Hx & Hp & Hw & ->). cbn [mflag].
    pose proof (Hok a e (or_introl eq_refl) x Hx) as Hf.
    specialize (IH w (fun b f Hin => Hok b f (or_intror Hin)) Hw).
    destruct (aflag t a).
    + destruct (qoddden e && qevennum e) eqn:E; [|exact Logic.I].
      apply andb_true_iff in E. rewrite qoddden_eq, qevennum_eq in E. destruct E as [E1 E2].
      apply fholds_mul; [|exact IH]. simpl. eapply qpow_even; eauto.
    + apply fholds_mul; [|exact IH]. simpl in *. eapply qpow_nonneg; eauto.
    + apply fholds_mul; [|exact IH]. simpl in *.
      destruct (qpow_pos x e Hf) as (p' & Hp' & Hpos). congruence.
Qed.
Lemma tflag_gen v x : mok (snd v) -> tden rho v = Some x -> fholds (tflag t v) x.
Proof.
  destruct v as [c m]. intros Hok H. apply tden_inv in H. destruct H as (u & Hu & ->).
  unfold tflag; simpl. pose proof (Q2R_sign c) as Hs. pose proof (mflag_gen m u Hok Hu) as Hf.
  destruct (Qnum c); simpl; [rewrite Hs; lra| |exact Logic.I].
  destruct (mflag t m); simpl in *; [exact Logic.I|apply Rmult_le_pos; lra|apply Rmult_lt_0_compat; lra].
Qed.
Lemma lflag_gen l x : lok l -> lden rho l = Some x -> fholds (lflag t l) x.
Proof.
  revert x; induction l as [|v l IH]; intros x Hok H.
  - simpl in *. injection H as <-. lra.
  - apply lden_cons in H. destruct H as (a & b & Ha & Hb & ->).
    pose proof (tflag_gen v a (Hok v (or_introl eq_refl)) Ha) as H1.
    specialize (IH b (fun w Hin => Hok w (or_intror Hin)) Hb). cbn [lflag].
    destruct (tflag t v), (lflag t l); simpl in *; try exact Logic.I; lra.
Qed.
Lemma mflag_sound m u : mden rho m = Some u -> fholds (mflag t m) u.
Proof. apply mflag_gen. intros a e _ x. apply aflag_sound. Qed.

(** Dropping positive factors. *)
Lemma filter_split (f : aid * Q -> bool) m u :
  mden rho m = Some u ->
  exists p w, mden rho (filter f m) = Some p /\ mden rho (filter (fun x => negb (f x)) m) = Some w /\ u = p * w.
Proof.
  revert u; induction m as [|[a e] m IH]; intros u H.
  - simpl in *. injection H as <-. exists 1, 1. repeat split; auto. ring.
  - apply mden_cons in H. destruct H as (x & q & w & Hx & Hq & Hw & ->).
    destruct (IH w Hw) as (p' & w' & Hp' & Hw' & ->). cbn [filter].
    destruct (f (a, e)); cbn [negb].
    + exists (q * p'), w'. repeat split; auto; try ring; apply mden_cons; eauto 10.
    + exists p', (q * w'). repeat split; auto; try ring; apply mden_cons; eauto 10.
Qed.
Lemma filter_pos m p :
  mden rho (filter (fun p => is_pos (aflag t (fst p))) m) = Some p -> 0 < p.
Proof.
  revert p; induction m as [|[a e] m IH]; intros p H; cbn [filter] in H.
  - simpl in H. injection H as <-. lra.
  - cbn [fst] in H. destruct (is_pos (aflag t a)) eqn:E; [|apply IH, H].
    apply mden_cons in H. destruct H as (x & q & w & Hx & Hq & Hw & ->).
    pose proof (aflag_sound a x Hx) as Hf. pose proof (fholds_pos _ _ Hf E) as Hpos.
    destruct (qpow_pos x e Hpos) as (q' & Hq' & Hq0). rewrite Hq in Hq'. injection Hq' as <-.
    apply Rmult_lt_0_compat; auto.
Qed.
Lemma strip_pos_sound m u :
  mden rho m = Some u -> exists p w, mden rho (strip_pos t m) = Some w /\ 0 < p /\ u = p * w.
Proof.
  intros H. destruct (filter_split (fun p => is_pos (aflag t (fst p))) m u H) as (p & w & Hp & Hw & ->).
  exists p, w. repeat split; auto. eapply filter_pos; eauto.
Qed.
Lemma tprim_sound v x :
  tden rho v = Some x -> qis0 (fst v) = false ->
  exists p w, tden rho (tprim t v) = Some w /\ 0 < p /\ x = p * w.
Proof.
  destruct v as [c m]. intros H H0. apply tden_inv in H. destruct H as (u & Hu & ->).
  destruct (strip_pos_sound m u Hu) as (p & w & Hw & Hp & ->).
  unfold tprim; simpl in *. pose proof (Q2R_sign c) as Hs. unfold qis0 in H0.
  destruct (Qnum c); [discriminate| |].
  - exists (Q2R c * p), w. repeat split; [|apply Rmult_lt_0_compat; lra|ring].
    apply tden_inv. exists w. split; [exact Hw|]. rewrite Q2R_q1; ring.
  - exists (- Q2R c * p), (- w). repeat split; [|apply Rmult_lt_0_compat; lra|ring].
    apply tden_inv. exists w. split; [exact Hw|]. rewrite Q2R_qopp, Q2R_q1; ring.
Qed.
End Pure.
End Den.
