(** Soundness of the normaliser, second part: the monadic operations, programs
    and the final equality check. *)
From Coq Require Import Reals List Bool NArith ZArith QArith Qpower Qreals Qround Lra Lia FMapPositive.
From Verif Require Import Bytes Syntax Semantics RPow Norm NormSound.
Import ListNotations.
Open Scope R_scope.

(** ** The table only grows *)
Definition grows {A} (m : M A) : Prop := forall t a t', m t = Some (a, t') -> ext t t'.

Lemma grows_ret {A} (a : A) : grows (ret a).
Proof. intros t b t' H. injection H as _ <-. apply ext_refl. Qed.
Lemma grows_get : grows get.
Proof. intros t b t' H. injection H as _ <-. apply ext_refl. Qed.
Lemma grows_fail {A} : grows (@fail A).
Proof. intros t b t' H. discriminate. Qed.
Lemma grows_lift {A} (o : option A) : grows (lift o).
Proof. destruct o; [apply grows_ret|apply grows_fail]. Qed.
Lemma grows_bind {A C} (m : M A) (k : A -> M C) :
  grows m -> (forall a, grows (k a)) -> grows (bind m k).
Proof.
  intros Hm Hk t b t' H. unfold bind in H. destruct (m t) as [[a u]|] eqn:E; [|discriminate].
  eapply ext_trans; [eapply Hm, E|eapply Hk, H].
Qed.
Lemma find_atom_sound t d l a :
  find_atom t d l = Some a -> exists f, lookup t a = Some (d, f).
Proof.
  induction l as [|b l IH]; simpl; [discriminate|].
  destruct (lookup t b) as [[d' f]|] eqn:E; [|apply IH].
  destruct (deqb d d') eqn:Ed; [|apply IH]. intros H. injection H as <-.
  apply deqb_eq in Ed. subst d'. eauto.
Qed.
Lemma grows_intern cfg d : grows (intern cfg d).
Proof.
  intros t a t' H. unfold intern in H.
  destruct (find_atom t d _) as [b|]; [injection H as _ <-; apply ext_refl|].
  destruct (lookup t (tnext t)) eqn:E; [discriminate|]. injection H as _ <-.
  intros b x Hb. unfold lookup in *; simpl.
  destruct (Pos.eq_dec (tnext t) b) as [<-|Hn]; [congruence|].
  rewrite PM.gso by congruence. exact Hb.
Qed.

Create HintDb grow.
Ltac grow :=
  repeat first
    [ solve [auto 1 with grow nocore]
    | simple apply grows_bind; [|intros ?]
    | apply grows_ret | apply grows_get | apply grows_fail | apply grows_lift | apply grows_intern
    | assumption
    | match goal with
      | |- grows (let x := ?y in _) => cbv zeta
      | |- grows (if ?b then _ else _) => destruct b
      | |- grows (match ?x with _ => _ end) => destruct x
      | |- grows (let '(_, _) := ?x in _) => destruct x
      end ].

Section Grow.
Variable cfg : config.
Lemma grows_atom d : grows (atom cfg d).
Proof. unfold atom. grow. Qed.
Hint Resolve grows_atom : grow.
Lemma grows_fromterms l : grows (fromterms cfg l).
Proof. unfold fromterms. grow. Qed.
Hint Resolve grows_fromterms : grow.
Lemma grows_tsum l : grows (tsum cfg l).
Proof. unfold tsum. grow. Qed.
Hint Resolve grows_tsum : grow.
Lemma grows_cpow_list q l : grows (cpow_list cfg q l).
Proof. induction l as [|[p k] l IH]; cbn [cpow_list]; grow. Qed.
Hint Resolve grows_cpow_list : grow.
Lemma grows_cpow n d q : grows (cpow cfg n d q).
Proof. unfold cpow. grow. Qed.
Hint Resolve grows_cpow : grow.
Lemma grows_tpowq v q : grows (tpowq cfg v q).
Proof. unfold tpowq. grow. Qed.
Hint Resolve grows_tpowq : grow.
Lemma grows_ncmp o a b : grows (ncmp cfg o a b).
Proof. unfold ncmp. grow. Qed.
Hint Resolve grows_ncmp : grow.
Lemma grows_ite0 c a b : grows (ite0 cfg c a b).
Proof. unfold ite0. grow. Qed.
Hint Resolve grows_ite0 : grow.
Lemma grows_nfn1 f v : grows (nfn1 cfg f v).
Proof. unfold nfn1. grow. Qed.
Hint Resolve grows_nfn1 : grow.
Lemma grows_nite c a b : grows (nite cfg c a b).
Proof. unfold nite. grow. Qed.
Hint Resolve grows_nite : grow.
Lemma grows_npow b x : grows (npow cfg b x).
Proof. unfold npow. grow. Qed.
Hint Resolve grows_npow : grow.
Lemma grows_force x : grows (force cfg x).
Proof. unfold force. grow. Qed.
Hint Resolve grows_force : grow.
Lemma grows_force_r x : grows (force_r cfg x).
Proof. unfold force_r. grow. Qed.
Hint Resolve grows_force_r : grow.
Lemma grows_force_b x : grows (force_b cfg x).
Proof. unfold force_b. grow. Qed.
Hint Resolve grows_force_b : grow.
Lemma grows_aslist x : grows (aslist x).
Proof. unfold aslist. grow. Qed.
Hint Resolve grows_aslist : grow.
Lemma grows_nexpr env e : grows (nexpr cfg env e).
Proof.
  induction e; cbn [nexpr]; unfold rr, bb; grow.
Qed.
Hint Resolve grows_nexpr : grow.
Lemma grows_nval env e : grows (nval cfg env e).
Proof. unfold nval. grow. Qed.
Hint Resolve grows_nval : grow.
Lemma grows_nexec env p : grows (nexec cfg env p).
Proof.
  revert env; induction p as [|[x e] p IH]; intros env; cbn [nexec]; grow.
Qed.
Hint Resolve grows_nexec : grow.
Lemma grows_ninit l env : grows (ninit cfg l env).
Proof. induction l as [|[x e] l IH]; cbn [ninit]; grow. Qed.
Hint Resolve grows_ninit : grow.
Lemma grows_nrun r : grows (nrun cfg r).
Proof. unfold nrun. grow. Qed.
Hint Resolve grows_nrun : grow.
Lemma grows_nruns l env : grows (nruns cfg l env).
Proof. induction l as [|r l IH]; cbn [nruns]; grow. Qed.
Hint Resolve grows_nruns : grow.
Lemma grows_ncond e : grows (ncond cfg e).
Proof. unfold ncond. grow. Qed.
Hint Resolve grows_ncond : grow.
Lemma grows_nknown l : grows (nknown cfg l).
Proof. induction l as [|[e b] l IH]; cbn [nknown]; grow. Qed.
Hint Resolve grows_nknown : grow.
Lemma grows_nexcl l : grows (nexcl cfg l).
Proof. induction l as [|[e b] l IH]; cbn [nexcl]; grow. Qed.
Hint Resolve grows_nexcl : grow.
Lemma grows_ngoals env l : grows (ngoals cfg env l).
Proof. induction l as [|[e b] l IH]; cbn [ngoals]; grow. Qed.
Hint Resolve grows_ngoals : grow.
End Grow.
#[export] Hint Resolve grows_atom grows_fromterms grows_tsum grows_cpow_list grows_cpow grows_tpowq grows_ncmp
  grows_ite0 grows_nite grows_nfn1 grows_npow grows_force grows_force_r grows_force_b grows_aslist
  grows_nexpr grows_nval grows_nexec grows_ninit grows_nrun grows_nruns grows_ncond grows_nknown
  grows_nexcl grows_ngoals : grow.

(** ** Rational powers of positive numbers *)
Lemma qpow_of_pos x q : 0 < x -> qpow x q = Some (Rpower x (Q2R q)).
Proof. intros H. unfold qpow. destruct (Rlt_dec 0 x); [reflexivity|contradiction]. Qed.
Lemma qpow_scale a y q w :
  0 < a -> qpow (a * y) q = Some w -> exists v, qpow y q = Some v /\ w = Rpower a (Q2R q) * v.
Proof.
  intros Ha H.
  assert (Hc : qodd q = true \/ (0 <= a /\ 0 <= y)).
  { destruct (Rlt_dec y 0) as [Hy|Hy]; [|right; lra].
    assert (a * y < 0) by (rewrite <- (Rmult_0_r a); apply Rmult_lt_compat_l; assumption).
    left. unfold qpow in H. destruct (Rlt_dec 0 (a * y)); [lra|].
    destruct (Req_EM_T (a * y) 0); [lra|]. destruct (qodd q); [reflexivity|discriminate]. }
  destruct (qpow_mult a y q w H Hc) as (u & v & Hu & Hv & ->).
  rewrite (qpow_of_pos a q Ha) in Hu. injection Hu as <-. eauto.
Qed.
Lemma qpow_m1 q : qodd q = true -> qpow (-1) q = Some (if qnum_even q then 1 else -1).
Proof.
  intros H. unfold qpow. destruct (Rlt_dec 0 (-1)); [lra|]. destruct (Req_EM_T (-1) 0); [lra|].
  rewrite H. replace (- -1) with 1 by lra. rewrite Rpower_1_l. destruct (qnum_even q); f_equal; lra.
Qed.
Lemma Q2R_qdiv n d : Q2R (Zpos n # d) = IZR (Zpos n) / IZR (Zpos d).
Proof. reflexivity. Qed.
Lemma IZR_pos p : 0 < IZR (Zpos p).
Proof. apply IZR_lt. reflexivity. Qed.

(** ** Meaning of monadic computations *)
Section Sem.
Variable I : interp.
Variable B : attrs.
Variable rho : valuation.
Let con := consistent I B rho.

Definition sem {A} (m : M A) (P : A -> Prop) : Prop :=
  forall t a t', m t = Some (a, t') -> con t' -> P a.

Lemma sem_ret {A} (a : A) (P : A -> Prop) : P a -> sem (ret a) P.
Proof. intros HP t b t' H _. injection H as <- _. exact HP. Qed.
Lemma sem_get : sem get con.
Proof. intros t b t' H Hc. injection H as <- <-. exact Hc. Qed.
Lemma sem_fail {A} (P : A -> Prop) : sem fail P.
Proof. intros t b t' H. discriminate. Qed.
Lemma sem_lift {A} (o : option A) (P : A -> Prop) : (forall a, o = Some a -> P a) -> sem (lift o) P.
Proof. intros H. destruct o; [apply sem_ret, H; reflexivity|apply sem_fail]. Qed.
Lemma sem_bind {A C} (m : M A) (k : A -> M C) (P : A -> Prop) (Q : C -> Prop) :
  (forall a, grows (k a)) -> sem m P -> (forall a, P a -> sem (k a) Q) -> sem (bind m k) Q.
Proof.
  intros Hg Hm Hk t b t' H Hc. unfold bind in H. destruct (m t) as [[a u]|] eqn:E; [|discriminate].
  apply (Hk a) with (t := u) (t' := t'); auto.
  eapply Hm; [exact E|]. eapply consistent_ext; [|exact Hc]. eapply Hg, H.
Qed.
Lemma sem_conseq {A} (m : M A) (P Q : A -> Prop) : sem m P -> (forall a, P a -> Q a) -> sem m Q.
Proof. intros H K t a t' E Hc. apply K. eapply H; eauto. Qed.

Lemma sem_intern cfg d : sem (intern cfg d) (fun a => rho a = dden I B rho d).
Proof.
  intros t a t' H Hc. unfold intern in H.
  destruct (find_atom t d _) as [b|] eqn:Ef.
  - injection H as <- <-. destruct (find_atom_sound _ _ _ _ Ef) as [f Hl].
    apply (Hc _ _ _ Hl).
  - destruct (lookup t (tnext t)) eqn:E; [discriminate|]. injection H as <- <-.
    eapply Hc. unfold lookup; simpl. apply PM.gss.
Qed.
Lemma sem_atom cfg d : sem (atom cfg d) (fun r => tden rho r = dden I B rho d).
Proof.
  unfold atom. eapply sem_bind; [intros; grow|apply sem_intern|]. intros a Ha.
  apply sem_ret. rewrite tden_atom. exact Ha.
Qed.

Ltac sbind L := eapply sem_bind; [intros; grow|apply L|].

Lemma mono_tden c m u : mden rho m = Some u -> tden rho (c, m) = Some (Q2R c * u).
Proof. intros H. apply tden_inv. eauto. Qed.
Lemma Q2R_qinv' c : qis0 c = false -> Q2R c * Q2R (qinv c) = 1.
Proof. intros H. apply qis0_false in H. rewrite Q2R_qinv by exact H. field. exact H. Qed.

Lemma sem_fromterms cfg l :
  sem (fromterms cfg l) (fun r => forall x, lden rho l = Some x -> tden rho r = Some x).
Proof.
  unfold fromterms. destruct l as [|v [|w l0]].
  - apply sem_ret. intros x H. simpl in H. injection H as <-. apply tden_zero.
  - apply sem_ret. intros x H. apply lden_cons in H. destruct H as (a & b & Ha & Hb & ->).
    simpl in Hb. injection Hb as <-. rewrite Ha. f_equal; ring.
  - set (l := v :: w :: l0). clearbody l. sbind sem_get. intros t Ht. cbv zeta.
    eapply sem_bind; [intros; grow|apply sem_lift; intros a Ha; exact Ha|]. intros l1 Hl1.
    destruct (qis0 _) eqn:E0; [apply sem_fail|].
    sbind sem_intern. intros s Hs. sbind sem_get. intros t' Ht'. apply sem_ret. intros x Hx.
    destruct (pull_sound _ _ _ _ _ Hl1 Hx) as (u & z & Hu & Hz & ->).
    apply lsort_sound in Hz. simpl in Hs. rewrite (lden_qscale _ _ _ _ Hz) in Hs.
    set (lead := match lsort l1 with [] => q1 | v :: _ => fst v end) in *.
    assert (H2 : tden rho (lead, [(s, q1)]) = Some (Q2R lead * (Q2R (qinv lead) * z))).
    { apply mono_tden. pose proof (tden_atom rho s) as Ht1. unfold tden in Ht1. cbn [fst snd] in Ht1.
      destruct (mden rho [(s, q1)]) as [m|]; [|congruence].
      rewrite Hs, Q2R_q1 in Ht1. injection Ht1 as Ht1. f_equal. lra. }
    rewrite (tmul_sound I B rho t' Ht' _ _ _ _ (mono_tden q1 _ _ Hu) H2), Q2R_q1.
    f_equal. transitivity (u * z * (Q2R lead * Q2R (qinv lead))); [ring|].
    rewrite (Q2R_qinv' _ E0). ring.
Qed.
Lemma lden_filter0 vs x : lden rho vs = Some x ->
  lden rho (filter (fun v => negb (tis0 v)) vs) = Some x.
Proof. apply lden_filter. Qed.
Lemma sem_tsum cfg vs :
  sem (tsum cfg vs) (fun r => forall x, lden rho vs = Some x -> tden rho r = Some x).
Proof.
  unfold tsum. pose proof (lden_filter0 vs) as Hf.
  destruct (filter (fun v => negb (tis0 v)) vs) as [|v [|w l0]].
  - apply sem_ret. intros x H. apply Hf in H. simpl in H. injection H as <-. apply tden_zero.
  - apply sem_ret. intros x H. apply Hf in H. apply lden_cons in H. destruct H as (a & b & Ha & Hb & ->).
    simpl in Hb. injection Hb as <-. rewrite Ha. f_equal; ring.
  - set (l := v :: w :: l0) in *. clearbody l. sbind sem_get. intros t Ht. cbv zeta.
    eapply sem_bind; [intros; grow|apply sem_lift; intros a Ha; exact Ha|]. intros l1 Hl1.
    eapply sem_bind; [intros; grow|apply sem_lift; intros a Ha; exact Ha|]. intros l2 Hl2.
    sbind sem_fromterms. intros r Hr. sbind sem_get. intros t' Ht'. apply sem_ret. intros x Hx.
    apply Hf in Hx. destruct (pull_sound _ _ _ _ _ Hl1 Hx) as (u & z & Hu & Hz & ->).
    pose proof (expand_all_sound I B rho t Ht _ _ _ _ Hl2 Hz) as H2. apply Hr in H2.
    rewrite (tmul_sound I B rho t' Ht' _ _ _ _ (mono_tden q1 _ _ Hu) H2), Q2R_q1. f_equal; ring.
Qed.

(** Powers of constants. *)
Lemma IZR_pow p k : IZR (Zpos (Pos.pow p k)) = IZR (Zpos p) ^ Pos.to_nat k.
Proof. rewrite pow_IZR, Pos2Z.inj_pow. do 2 f_equal. lia. Qed.
Lemma sem_cpow_list cfg q l :
  sem (cpow_list cfg q l) (fun r => tden rho r = Some (Rpower (IZR (Zpos (prod_factors l))) (Q2R q))).
Proof.
  induction l as [|[p k] l IH]; cbn [cpow_list].
  - apply sem_ret. simpl. rewrite Rpower_1_l. apply tden_one.
  - sbind IH. intros r Hr. sbind sem_intern. intros a Ha. sbind sem_get. intros t Ht. apply sem_ret.
    change (prod_factors ((p, k) :: l)) with (Pos.pow p k * prod_factors l)%positive.
    rewrite Pos2Z.inj_mul, mult_IZR, <- Rpower_mult_distr by apply IZR_pos.
    apply (tmul_sound I B rho t Ht); [|exact Hr].
    erewrite (tmk_sound I B rho t Ht).
    2:{ apply mden_cons. simpl in Ha. rewrite Ha. exists (IZR (Zpos p)).
        do 2 eexists. split; [reflexivity|]. split; [apply qpow_of_pos, IZR_pos|]. split; reflexivity. }
    rewrite Q2R_q1, Rmult_1_l, Rmult_1_r. f_equal.
    rewrite Q2R_qmul, Q2R_Z, IZR_pow, <- Rpower_pow by apply IZR_pos.
    rewrite Rpower_mult. f_equal. rewrite INR_IZR_INZ, positive_nat_Z. ring.
Qed.
Lemma prod_factor x : prod_factors (factor x) = x.
Proof.
  unfold factor. destruct (Pos.eqb _ x) eqn:E; [apply Pos.eqb_eq, E|].
  simpl. lia.
Qed.
Lemma sem_cpow cfg n d q :
  sem (cpow cfg n d q) (fun r => tden rho r = Some (Rpower (IZR (Zpos n) / IZR (Zpos d)) (Q2R q))).
Proof.
  unfold cpow. sbind sem_cpow_list. intros x Hx. sbind sem_cpow_list. intros y Hy. sbind sem_get.
  intros t Ht. apply sem_ret. rewrite prod_factor in Hx, Hy.
  rewrite (tmul_sound I B rho t Ht _ _ _ _ Hx Hy). f_equal.
  rewrite Q2R_qopp, Rpower_Ropp. pose proof (IZR_pos n). pose proof (IZR_pos d).
  rewrite <- Rpower_Ropp. unfold Rdiv.
  replace (Rpower (IZR (Zpos d)) (- Q2R q)) with (Rpower (/ IZR (Zpos d)) (Q2R q)).
  - apply Rpower_mult_distr; [assumption|apply Rinv_0_lt_compat; assumption].
  - unfold Rpower. rewrite ln_Rinv by assumption. f_equal. ring.
Qed.

Lemma forallb_nn t (m : mono) : con t -> forallb (fun p => is_nn (aflag t (fst p))) m = true ->
  forall a e, In (a, e) m -> forall x, rho a = Some x -> 0 <= x.
Proof.
  intros Ht H a e Hin x Hx. rewrite forallb_forall in H. specialize (H _ Hin). simpl in H.
  eapply fholds_nn; [|exact H]. eapply aflag_sound; eauto.
Qed.
Lemma sem_tpowq cfg v q :
  sem (tpowq cfg v q)
      (fun r => forall x w, tden rho v = Some x -> qpow x q = Some w -> tden rho r = Some w).
Proof.
  unfold tpowq. destruct (qint q) as [[|n|n]|] eqn:Eq.
  - apply qint_eq in Eq. subst q. apply sem_ret. intros x w Hx Hw.
    change (0 # 1)%Q with 0%Q in Hw. rewrite qpow_0 in Hw. injection Hw as <-. apply tden_one.
  - apply qint_eq in Eq. subst q. sbind sem_get. intros t Ht. apply sem_ret. intros x w Hx Hw.
    rewrite qpow_posn in Hw. injection Hw as <-. eapply tpowi_sound; eauto.
  - apply qint_eq in Eq. subst q. sbind sem_get. intros t Ht. apply sem_ret. intros x w Hx Hw.
    assert (Hz : x <> 0) by (eapply qpow_neg_nz; [exact Hw|reflexivity]).
    pose proof (tinv_sound I B rho t Ht _ _ Hx Hz) as Hi.
    rewrite (tpowi_sound I B rho t Ht _ _ n Hi).
    pose proof (qpow_opp x (Zpos n # 1) _ (qpow_posn x n) (pow_nonzero _ _ Hz)) as Ho.
    change (- (Zpos n # 1))%Q with (Zneg n # 1)%Q in Ho. rewrite Hw in Ho. rewrite Ho. f_equal.
    apply pow_inv.
  - destruct v as [c m]. cbn [fst snd].
    assert (Hpos : forall n, sem (cr <- cpow cfg n (Qden c) q;; get) (fun _ => True)) by (intros n t a t' _ _; exact Logic.I).
    clear Hpos.
    pose proof (Q2R_sign c) as Hs. destruct c as [[|n|n] d]; cbn [Qnum Qden] in *.
    + apply sem_ret. intros x w Hx Hw. apply tden_inv in Hx. destruct Hx as (u & _ & ->).
      rewrite Hs, Rmult_0_l in Hw. unfold qpow in Hw. destruct (Rlt_dec 0 0); [lra|].
      destruct (Req_EM_T 0 0); [|lra].
      destruct (qis0 q) eqn:E0.
      * apply qis0_Qeq in E0. rewrite (Qeq_alt q 0) in E0. rewrite E0 in Hw. injection Hw as <-. apply tden_one.
      * destruct (Qcompare_spec q 0) as [E|E|E]; [|discriminate|].
        -- exfalso. apply qis0_false in E0. apply E0. rewrite (Qeq_eqR _ _ E). apply Q2R_0.
        -- injection Hw as <-. apply tden_zero.
    + sbind sem_cpow. intros cr Hcr. sbind sem_get. intros t Ht. cbv zeta. cbn [negb andb].
      rewrite <- Q2R_qdiv in Hcr.
      destruct (orb (qoddden q) (forallb (fun p => is_nn (aflag t (fst p))) m)) eqn:Eo.
      * apply sem_ret. intros x w Hx Hw. apply tden_inv in Hx. destruct Hx as (u & Hu & ->).
        destruct (qpow_scale _ _ _ _ Hs Hw) as (v & Hv & ->).
        assert (Hm : mden rho (mscale q m) = Some v).
        { eapply mscale_sound; eauto. apply orb_true_iff in Eo. rewrite qoddden_eq in Eo.
          destruct Eo as [Eo|Eo]; [left; exact Eo|right]. eapply forallb_nn; eauto. }
        rewrite (tmul_sound I B rho t Ht _ _ _ _ Hcr (tmk_sound I B rho t Ht q1 _ _ Hm)), Q2R_q1.
        f_equal; ring.
      * set (P := filter (fun p => is_pos (aflag t (fst p))) m).
        set (R := filter (fun p => negb (is_pos (aflag t (fst p)))) m).
        assert (Hmain : forall x w, tden rho (Zpos n # d, m)%Q = Some x -> qpow x q = Some w ->
                  exists rp rr v, mden rho P = Some rp /\ 0 < rp /\ mden rho R = Some rr /\
                    qpow rr q = Some v /\ w = Rpower (Q2R (Zpos n # d)) (Q2R q) * (Rpower rp (Q2R q) * v)).
        { intros x w Hx Hw. apply tden_inv in Hx. destruct Hx as (u & Hu & ->).
          destruct (filter_split rho (fun p => is_pos (aflag t (fst p))) m u Hu) as (rp & rr & Hp & Hr & ->).
          assert (0 < rp) by (eapply filter_pos; eauto).
          destruct (qpow_scale _ _ _ _ Hs Hw) as (v1 & Hv1 & ->).
          destruct (qpow_scale _ _ _ _ H Hv1) as (v2 & Hv2 & ->).
          exists rp, rr, v2. repeat split; assumption. }
        assert (Hr : forall rp, mden rho P = Some rp -> 0 < rp ->
                  tden rho (tmul t cr (tmk t q1 (mscale q P))) =
                  Some (Rpower (Q2R (Zpos n # d)) (Q2R q) * Rpower rp (Q2R q))).
        { intros rp Hp Hpp. 
          assert (Hm : mden rho (mscale q P) = Some (Rpower rp (Q2R q))).
          { eapply mscale_sound; [exact Hp|apply qpow_of_pos, Hpp|]. right. intros a e Hin y Hy.
            apply filter_In in Hin. destruct Hin as [_ Hin]. simpl in Hin.
            left. eapply fholds_pos; [|exact Hin]. eapply aflag_sound; eauto. }
          rewrite (tmul_sound I B rho t Ht _ _ _ _ Hcr (tmk_sound I B rho t Ht q1 _ _ Hm)), Q2R_q1.
          f_equal; ring. }
        assert (Hdv : forall (t' : tbl) x0 rr v, rho x0 = Some rr -> qpow rr q = Some v ->
                  tden rho (q1, [(x0, q)]) = Some v).
        { intros _ x0 rr v H1 H2. rewrite tden_single, H1. exact H2. }
        assert (Hgen : sem (x <- intern cfg (DVal (q1, R));; t0 <- get;; ret (tmul t0 (tmul t cr (tmk t q1 (mscale q P))) (q1, [(x, q)])))
                         (fun r => forall x w, tden rho (Zpos n # d, m)%Q = Some x -> qpow x q = Some w -> tden rho r = Some w)).
        { sbind sem_intern. intros x0 Hx0. sbind sem_get. intros t' Ht'. apply sem_ret. intros x w Hx Hw.
          destruct (Hmain x w Hx Hw) as (rp & rr & v & Hp & Hpp & Hrr & Hv & ->).
          pose proof (eq_trans Hx0 (mono_tden q1 _ _ Hrr)) as Hx1. clear Hx0. rename Hx1 into Hx0.
          rewrite Q2R_q1, Rmult_1_l in Hx0.
          rewrite (tmul_sound I B rho t' Ht' _ _ _ _ (Hr rp Hp Hpp) (Hdv t' x0 rr v Hx0 Hv)). f_equal; ring. }
        destruct R as [|[a e] [|p2 R']] eqn:ER; [exact Hgen| |exact Hgen].
        destruct (qeqb e q1) eqn:Ee; [|exact Hgen]. apply qeqb_eq in Ee. subst e.
        apply sem_ret. intros x w Hx Hw.
        destruct (Hmain x w Hx Hw) as (rp & rr & v & Hp & Hpp & Hrr & Hv & ->).
        apply mden_cons in Hrr. destruct Hrr as (y & p' & w' & Hy & Hp' & Hw' & ->).
        change q1 with 1%Q in Hp'. rewrite qpow_1 in Hp'. injection Hp' as <-.
        simpl in Hw'. injection Hw' as <-. rewrite Rmult_1_r in Hv.
        rewrite (tmul_sound I B rho t Ht _ _ _ _ (Hr rp Hp Hpp) (Hdv t a y v Hy Hv)). f_equal; ring.
    + sbind sem_cpow. intros cr Hcr. sbind sem_get. intros t Ht. cbv zeta. cbn [negb andb].
      rewrite <- Q2R_qdiv in Hcr. rewrite orb_false_r.
      assert (Hc : Q2R (Zneg n # d) = - Q2R (Zpos n # d)).
      { change (Zneg n # d)%Q with (- (Zpos n # d))%Q. apply Q2R_opp. }
      assert (Hcp : 0 < Q2R (Zpos n # d)) by lra.
      destruct (qoddden q) eqn:Eo.
      * rewrite qoddden_eq in Eo. apply sem_ret. intros x w Hx Hw. apply tden_inv in Hx. destruct Hx as (u & Hu & ->).
        rewrite Hc in Hw. replace (- Q2R (Zpos n # d) * u) with (Q2R (Zpos n # d) * (-1 * u)) in Hw by ring.
        destruct (qpow_scale _ _ _ _ Hcp Hw) as (v & Hv & ->).
        destruct (qpow_mult (-1) u q v Hv (or_introl Eo)) as (s & v' & Hs' & Hv' & ->).
        rewrite (qpow_m1 q Eo) in Hs'. injection Hs' as <-.
        assert (Hm : mden rho (mscale q m) = Some v') by (eapply mscale_sound; eauto).
        pose proof (tmul_sound I B rho t Ht _ _ _ _ Hcr (tmk_sound I B rho t Ht q1 _ _ Hm)) as Hr.
        rewrite Q2R_q1 in Hr. rewrite qevennum_eq. destruct (qnum_even q); cbn [negb].
        -- rewrite Hr. f_equal; ring.
        -- rewrite (tneg_sound _ _ _ Hr). f_equal; ring.
      * set (P := filter (fun p => is_pos (aflag t (fst p))) m).
        set (R := filter (fun p => negb (is_pos (aflag t (fst p)))) m).
        sbind sem_intern. intros x0 Hx0. sbind sem_get. intros t' Ht'. apply sem_ret. intros x w Hx Hw.
        apply tden_inv in Hx. destruct Hx as (u & Hu & ->).
        destruct (filter_split rho (fun p => is_pos (aflag t (fst p))) m u Hu) as (rp & rr & Hp & Hr & ->).
        fold P in Hp. fold R in Hr.
        assert (Hpp : 0 < rp) by (exact (filter_pos I B rho t Ht m rp Hp)).
        rewrite Hc in Hw.
        replace (- Q2R (Zpos n # d) * (rp * rr)) with (Q2R (Zpos n # d) * (rp * (- rr))) in Hw by ring.
        destruct (qpow_scale _ _ _ _ Hcp Hw) as (v1 & Hv1 & ->).
        destruct (qpow_scale _ _ _ _ Hpp Hv1) as (v2 & Hv2 & ->).
        assert (Hm : mden rho (mscale q P) = Some (Rpower rp (Q2R q))).
        { eapply mscale_sound; [exact Hp|apply qpow_of_pos, Hpp|]. right. intros a e Hin y Hy.
          apply filter_In in Hin. destruct Hin as [_ Hin]. simpl in Hin.
          left. eapply fholds_pos; [|exact Hin]. eapply aflag_sound; eauto. }
        pose proof (tmul_sound I B rho t Ht _ _ _ _ Hcr (tmk_sound I B rho t Ht q1 _ _ Hm)) as Hrr.
        pose proof (eq_trans Hx0 (mono_tden (qopp q1) _ _ Hr)) as Hx1. clear Hx0. rename Hx1 into Hx0.
        rewrite Q2R_qopp, Q2R_q1 in Hx0.
        assert (Hd : tden rho (q1, [(x0, q)]) = Some v2).
        { rewrite tden_single, Hx0. simpl. rewrite <- Hv2. f_equal. ring. }
        rewrite (tmul_sound I B rho t' Ht' _ _ _ _ Hrr Hd), Q2R_q1. f_equal; ring.
Qed.

(** Comparisons. *)
Lemma Rleb_true x y : x <= y -> Rleb x y = true.
Proof. intros H. unfold Rleb. destruct (Rle_dec x y); [reflexivity|contradiction]. Qed.
Lemma Rleb_false x y : ~ x <= y -> Rleb x y = false.
Proof. intros H. unfold Rleb. destruct (Rle_dec x y); [contradiction|reflexivity]. Qed.
Lemma Rltb_true x y : x < y -> Rltb x y = true.
Proof. intros H. unfold Rltb. destruct (Rlt_dec x y); [reflexivity|contradiction]. Qed.
Lemma Rltb_false x y : ~ x < y -> Rltb x y = false.
Proof. intros H. unfold Rltb. destruct (Rlt_dec x y); [contradiction|reflexivity]. Qed.
Lemma Reqb_true x y : x = y -> Reqb x y = true.
Proof. intros H. unfold Reqb. destruct (Req_EM_T x y); [reflexivity|contradiction]. Qed.
Lemma Reqb_false x y : x <> y -> Reqb x y = false.
Proof. intros H. unfold Reqb. destruct (Req_EM_T x y); [contradiction|reflexivity]. Qed.

Section Cfg.
Variable cfg : config.
Hypothesis Hknown : forall c b, In (c, b) (known cfg) -> cden rho c = Some b.
Hypothesis Hexcl : forall c d, In (c, d) (excl cfg) ->
  exists x y, cden rho c = Some x /\ cden rho d = Some y /\ x && y = false.

Lemma known_of_sound c b : cden rho c = Some b -> cden rho (known_of cfg c) = Some b.
Proof.
  intros H. unfold known_of.
  destruct (find (fun p => ceqb c (fst p)) (known cfg)) as [[c' b']|] eqn:E; [|exact H].
  apply find_some in E. destruct E as [Hin Heq]. simpl in Heq. apply ceqb_eq in Heq. subst c'.
  specialize (Hknown _ _ Hin). rewrite H in Hknown. injection Hknown as ->.
  destruct b'; reflexivity.
Qed.
Lemma is_excl_sound c d : is_excl cfg c d = true ->
  exists x y, cden rho c = Some x /\ cden rho d = Some y /\ x && y = false.
Proof.
  unfold is_excl. intros H. apply existsb_exists in H. destruct H as ([c' d'] & Hin & H).
  simpl in H. destruct (Hexcl _ _ Hin) as (x & y & Hx & Hy & Hxy).
  apply orb_true_iff in H. rewrite !andb_true_iff in H.
  destruct H as [[H1 H2]|[H1 H2]]; apply ceqb_eq in H1, H2; subst.
  - eauto.
  - exists y, x. rewrite andb_comm. auto.
Qed.

Lemma ge0_sound t d x : con t -> tden rho d = Some x -> cden rho (ge0 cfg t d) = Some (Rleb 0 x).
Proof.
  intros Ht Hd. pose proof Hd as Hd0. destruct d as [c m]. unfold ge0. cbn [fst snd] in *.
  pose proof (Q2R_sign c) as Hs. apply tden_inv in Hd. destruct Hd as (u & Hu & ->).
  pose proof (mflag_sound I B rho t Ht m u Hu) as Hf.
  assert (Hprim : qis0 c = false -> cden rho (known_of cfg (CGe0 (tprim t (c, m)))) = Some (Rleb 0 (Q2R c * u))).
  { intros H0. apply known_of_sound. simpl.
    destruct (tprim_sound I B rho t Ht (c, m) _ Hd0 H0) as (p & w & Hw & Hp & ->). rewrite Hw. simpl.
    f_equal. destruct (Rle_dec 0 w) as [H|H].
    - rewrite !Rleb_true; auto. apply Rmult_le_pos; lra.
    - rewrite !Rleb_false; auto. intros Hle. apply H. apply (Rmult_le_reg_l p); lra. }
  destruct (Qnum c) eqn:Ec.
  - simpl. rewrite Hs, Rmult_0_l, Rleb_true by lra. reflexivity.
  - destruct (is_nn (mflag t m)) eqn:En; [|apply Hprim; unfold qis0; rewrite Ec; reflexivity].
    simpl. rewrite Rleb_true; [reflexivity|]. apply Rmult_le_pos; [lra|]. eapply fholds_nn; eauto.
  - destruct (is_pos (mflag t m)) eqn:En; [|apply Hprim; unfold qis0; rewrite Ec; reflexivity].
    simpl. rewrite Rleb_false; [reflexivity|]. pose proof (fholds_pos _ _ Hf En).
    pose proof (Rmult_lt_0_compat (- Q2R c) u). lra.
Qed.
Lemma gt0_sound t d x : con t -> tden rho d = Some x -> cden rho (gt0 cfg t d) = Some (Rltb 0 x).
Proof.
  intros Ht Hd. pose proof Hd as Hd0. destruct d as [c m]. unfold gt0. cbn [fst snd] in *.
  pose proof (Q2R_sign c) as Hs. apply tden_inv in Hd. destruct Hd as (u & Hu & ->).
  pose proof (mflag_sound I B rho t Ht m u Hu) as Hf.
  assert (Hprim : qis0 c = false -> cden rho (known_of cfg (CGt0 (tprim t (c, m)))) = Some (Rltb 0 (Q2R c * u))).
  { intros H0. apply known_of_sound. simpl.
    destruct (tprim_sound I B rho t Ht (c, m) _ Hd0 H0) as (p & w & Hw & Hp & ->). rewrite Hw. simpl.
    f_equal. destruct (Rlt_dec 0 w) as [H|H].
    - rewrite !Rltb_true; auto. apply Rmult_lt_0_compat; lra.
    - rewrite !Rltb_false; auto. intros Hle. apply H. apply (Rmult_lt_reg_l p); lra. }
  destruct (Qnum c) eqn:Ec.
  - simpl. rewrite Hs, Rmult_0_l, Rltb_false by lra. reflexivity.
  - destruct (is_pos (mflag t m)) eqn:En; [|apply Hprim; unfold qis0; rewrite Ec; reflexivity].
    simpl. rewrite Rltb_true; [reflexivity|]. apply Rmult_lt_0_compat; [lra|]. eapply fholds_pos; eauto.
  - destruct (is_nn (mflag t m)) eqn:En; [|apply Hprim; unfold qis0; rewrite Ec; reflexivity].
    simpl. rewrite Rltb_false; [reflexivity|]. pose proof (fholds_nn _ _ Hf En).
    pose proof (Rmult_le_pos (- Q2R c) u). lra.
Qed.
Lemma eq0_sound t d x : con t -> tden rho d = Some x -> cden rho (eq0 cfg t d) = Some (Reqb x 0).
Proof.
  intros Ht Hd. destruct d as [c m]. unfold eq0. cbn [fst snd] in *.
  pose proof (Q2R_sign c) as Hs. apply tden_inv in Hd. destruct Hd as (u & Hu & ->).
  pose proof (mflag_sound I B rho t Ht m u Hu) as Hf.
  assert (Hprim : Q2R c <> 0 ->
    cden rho (if is_pos (mflag t m) then CFalse else known_of cfg (CEq0 (q1, strip_pos t m))) = Some (Reqb (Q2R c * u) 0)).
  { intros H0. destruct (is_pos (mflag t m)) eqn:En.
    { simpl. rewrite Reqb_false; [reflexivity|]. pose proof (fholds_pos _ _ Hf En).
      apply Rmult_integral_contrapositive_currified; auto; lra. }
    apply known_of_sound. cbn [cden].
    destruct (strip_pos_sound I B rho t Ht m u Hu) as (p & w & Hw & Hp & ->).
    rewrite (mono_tden q1 _ _ Hw). simpl. rewrite Q2R_q1, Rmult_1_l. f_equal.
    destruct (Req_EM_T w 0) as [->|H].
    - rewrite !Reqb_true; auto. ring.
    - rewrite !Reqb_false; auto. apply Rmult_integral_contrapositive_currified; [exact H0|]. apply Rmult_integral_contrapositive_currified; [lra|exact H]. }
  destruct (Qnum c) eqn:Ec.
  - simpl. rewrite Hs, Rmult_0_l, Reqb_true by lra. reflexivity.
  - apply Hprim; lra.
  - apply Hprim; lra.
Qed.
Lemma lden_two v w x y : tden rho v = Some x -> tden rho w = Some y -> lden rho [v; w] = Some (x + y).
Proof. intros Hv Hw. simpl. rewrite Hv, Hw. f_equal. ring. Qed.
Lemma sem_ncmp o a b :
  sem (ncmp cfg o a b) (fun r => forall x y, tden rho a = Some x -> tden rho b = Some y ->
                                 cden rho r = Some (cmp_sem o x y)).
Proof.
  unfold ncmp. sbind sem_tsum. intros d Hd. sbind sem_get. intros t Ht. apply sem_ret. intros x y Hx Hy.
  specialize (Hd _ (lden_two _ _ _ _ Hy (tneg_sound _ _ _ Hx))).
  destruct o; cbn [cmp_sem].
  - rewrite (ge0_sound _ _ _ Ht Hd). f_equal. destruct (Rle_dec x y).
    + rewrite !Rleb_true; lra.
    + rewrite !Rleb_false; lra.
  - rewrite (gt0_sound _ _ _ Ht Hd). f_equal. destruct (Rlt_dec x y).
    + rewrite !Rltb_true; lra.
    + rewrite !Rltb_false; lra.
  - rewrite (eq0_sound _ _ _ Ht Hd). f_equal. destruct (Req_EM_T x y).
    + rewrite !Reqb_true; lra.
    + rewrite !Reqb_false; lra.
Qed.
Lemma nor_sound a b x y :
  cden rho a = Some x -> cden rho b = Some y -> cden rho (nor a b) = Some (x || y).
Proof.
  intros Ha Hb.
  assert (H1 : cden rho (COr a b) = Some (x || y)) by (simpl; rewrite Ha, Hb; reflexivity).
  assert (H2 : cden rho (COr b a) = Some (x || y)) by (simpl; rewrite Ha, Hb, orb_comm; reflexivity).
  assert (H3 : cden rho (match ccmp a b with Eq => if ceqb a b then a else COr a b
                         | Lt => COr a b | Gt => COr b a end) = Some (x || y)).
  { destruct (ccmp a b); auto. destruct (ceqb a b) eqn:E; auto.
    apply ceqb_eq in E. subst b. rewrite Ha in Hb. injection Hb as <-. rewrite orb_diag. exact Ha. }
  destruct a; try (simpl in Ha; injection Ha as <-; destruct b; (exact Hb || reflexivity));
    destruct b; try exact H3;
    simpl in Hb; injection Hb as <-; rewrite ?orb_true_r, ?orb_false_r; auto.
Qed.
Lemma nand_sound a b x y :
  cden rho a = Some x -> cden rho b = Some y -> cden rho (nand a b) = Some (x && y).
Proof.
  intros Ha Hb.
  assert (H1 : cden rho (CAnd a b) = Some (x && y)) by (simpl; rewrite Ha, Hb; reflexivity).
  assert (H2 : cden rho (CAnd b a) = Some (x && y)) by (simpl; rewrite Ha, Hb, andb_comm; reflexivity).
  assert (H3 : cden rho (match ccmp a b with Eq => if ceqb a b then a else CAnd a b
                         | Lt => CAnd a b | Gt => CAnd b a end) = Some (x && y)).
  { destruct (ccmp a b); auto. destruct (ceqb a b) eqn:E; auto.
    apply ceqb_eq in E. subst b. rewrite Ha in Hb. injection Hb as <-. rewrite andb_diag. exact Ha. }
  destruct a; try (simpl in Ha; injection Ha as <-; destruct b; (exact Hb || reflexivity));
    destruct b; try exact H3;
    simpl in Hb; injection Hb as <-; rewrite ?andb_true_r, ?andb_false_r; auto.
Qed.

(** Conditionals. *)
Lemma as_ite_sound t v k x y z :
  con t -> as_ite t v = Some (k, x, y) -> tden rho v = Some z ->
  exists b, cden rho k = Some b /\ tden rho (if b : bool then x else y) = Some z.
Proof.
  intros Ht H Hv. destruct v as [c [|[a e] [|p m]]]; try discriminate. simpl in H.
  destruct (qeqb e q1) eqn:Ee; [|discriminate]. apply qeqb_eq in Ee. subst e.
  destruct (lookup t a) as [[d f]|] eqn:El; [|discriminate].
  destruct d as [| | | | | | | |k' x' y'|]; try discriminate. injection H as <- <- <-.
  destruct (Ht _ _ _ El) as [Ha _].
  apply tden_inv in Hv. destruct Hv as (u & Hu & ->).
  apply mden_cons in Hu. destruct Hu as (r & p & w & Hr & Hp & Hw & ->).
  change q1 with 1%Q in Hp. rewrite qpow_1 in Hp. injection Hp as <-.
  simpl in Hw. injection Hw as <-. rewrite Rmult_1_r.
  rewrite Hr in Ha. cbn [dden] in Ha. destruct (cden rho k') as [b|]; [|discriminate].
  exists b. split; [reflexivity|]. destruct b; apply tscale_sound; congruence.
Qed.
Lemma assume_sound n t c b v z :
  con t -> cden rho c = Some b -> tden rho v = Some z -> tden rho (assume cfg n t c b v) = Some z.
Proof.
  intros Ht Hc. revert v; induction n as [|n IH]; intros v Hv; [exact Hv|]. cbn [assume].
  destruct (as_ite t v) as [[[k x] y]|] eqn:E; [|exact Hv].
  destruct (as_ite_sound _ _ _ _ _ _ Ht E Hv) as (b' & Hb & Hz).
  destruct (ceqb k c) eqn:Ec.
  - apply ceqb_eq in Ec. subst k. rewrite Hc in Hb. injection Hb as <-. apply IH. exact Hz.
  - destruct (b && is_excl cfg c k) eqn:Eb; [|exact Hv].
    apply andb_true_iff in Eb. destruct Eb as [-> Ex].
    destruct (is_excl_sound _ _ Ex) as (p & q & Hp & Hq & Hpq).
    rewrite Hc in Hp. injection Hp as <-. simpl in Hpq. subst q. rewrite Hq in Hb. injection Hb as <-.
    apply IH. exact Hz.
Qed.
Lemma sem_ite0 c a b :
  sem (ite0 cfg c a b) (fun r => forall bb z, cden rho c = Some bb ->
      tden rho (if bb : bool then a else b) = Some z -> tden rho r = Some z).
Proof.
  unfold ite0. destruct (teqb a b) eqn:Eab.
  { apply teqb_eq in Eab. subst b. apply sem_ret. intros [] z _ H; exact H. }
  cbv zeta. set (l := if tis0 a then fst b else _). clearbody l.
  destruct (qis0 l) eqn:El; [apply sem_fail|].
  set (g := if tis0 a then [] else _). clearbody g.
  eapply sem_bind; [intros; grow|apply sem_lift; intros m Hm; exact Hm|]. intros ma Hma.
  eapply sem_bind; [intros; grow|apply sem_lift; intros m Hm; exact Hm|]. intros mb Hmb.
  sbind sem_intern. intros x Hx. sbind sem_get. intros t Ht. apply sem_ret. intros bb z Hc Hz.
  cbn [dden] in Hx. rewrite Hc in Hx.
  assert (Hgo : forall (v : term) mv, msubs (snd v) g = Some mv -> tden rho v = Some z ->
                  rho x = tden rho (qmul (fst v) (qinv l), mv) ->
                  tden rho (tmul t (l, g) (q1, [(x, q1)])) = Some z).
  { intros [cv m] mv Hmv Hv Hxv. cbn [fst snd] in *.
    apply tden_inv in Hv. destruct Hv as (u & Hu & ->).
    destruct (msubs_sound _ _ _ _ _ Hmv Hu) as (p & w & Hp & Hw & ->).
    rewrite (mono_tden _ _ _ Hw), Q2R_qmul in Hxv.
    assert (H2 : tden rho (q1, [(x, q1)]) = Some (Q2R cv * Q2R (qinv l) * w)) by (rewrite tden_atom; exact Hxv).
    refine (eq_trans (tmul_sound I B rho t Ht _ _ _ _ (mono_tden l _ _ Hp) H2) _). f_equal.
    transitivity (Q2R l * Q2R (qinv l) * (Q2R cv * (p * w))); [ring|]. rewrite (Q2R_qinv' _ El). ring. }
  destruct bb; [exact (Hgo a ma Hma Hz Hx)|exact (Hgo b mb Hmb Hz Hx)].
Qed.
(** Functions. *)
Lemma tis0_den v x : tis0 v = true -> tden rho v = Some x -> x = 0.
Proof.
  destruct v as [c m]. unfold tis0; simpl. intros H Hv. apply tden_inv in Hv.
  destruct Hv as (u & _ & ->). rewrite (qis0_true _ H). ring.
Qed.
Lemma arcsinh_opp x : arcsinh (- x) = - arcsinh x.
Proof.
  unfold arcsinh.
  assert (Hs : 0 <= x ^ 2 + 1) by (pose proof (pow2_ge_0 x); lra).
  replace ((- x) ^ 2 + 1) with (x ^ 2 + 1) by ring.
  assert (H1 : 0 < x + sqrt (x ^ 2 + 1)).
  { pose proof (sqrt_pos (x ^ 2 + 1)). pose proof (sqrt_sqrt _ Hs).
    destruct (Rlt_dec 0 (x + sqrt (x ^ 2 + 1))) as [|Hn]; [assumption|exfalso].
    assert (sqrt (x ^ 2 + 1) <= - x) by lra.
    assert (sqrt (x ^ 2 + 1) * sqrt (x ^ 2 + 1) <= (- x) * (- x)) by (apply Rmult_le_compat; lra).
    simpl in *. lra. }
  rewrite <- ln_Rinv by exact H1. f_equal.
  apply (Rmult_eq_reg_r (x + sqrt (x ^ 2 + 1))); [|lra].
  rewrite Rinv_l by lra. pose proof (sqrt_sqrt _ Hs) as Hq. ring_simplify.
  simpl in *. lra.
Qed.
Lemma tanh_opp x : tanh (- x) = - tanh x.
Proof.
  unfold tanh, sinh, cosh. rewrite Ropp_involutive.
  pose proof (exp_pos x). pose proof (exp_pos (- x)). field. lra.
Qed.
Lemma Ratanh_opp x : Rabs x < 1 -> Ratanh (- x) = - Ratanh x.
Proof.
  intros H. apply Rabs_def2 in H. unfold Ratanh.
  replace ((1 + - x) / (1 - - x)) with (/ ((1 + x) / (1 - x))) by (field; lra).
  rewrite ln_Rinv; [lra|]. apply Rdiv_lt_0_compat; lra.
Qed.
Lemma odd_fn_opp f x w : odd_fn f = true -> fn1_sem I f x = Some w -> fn1_sem I f (- x) = Some (- w).
Proof.
  destruct f; try discriminate; intros _; simpl; intros H; try (injection H as <-).
  - rewrite atan_opp. reflexivity.
  - rewrite arcsinh_opp. reflexivity.
  - rewrite Rabs_Ropp. destruct (Rlt_dec (Rabs x) 1); [|discriminate]. injection H as <-.
    rewrite Ratanh_opp by assumption. reflexivity.
  - rewrite tanh_opp. reflexivity.
  - rewrite sin_neg. reflexivity.
Qed.
Lemma odd_fn_0 f w : odd_fn f = true -> fn1_sem I f 0 = Some w -> w = 0.
Proof.
  intros Ho H. pose proof (odd_fn_opp f 0 w Ho H) as H'. rewrite Ropp_0, H in H'.
  injection H' as H'. lra.
Qed.
Lemma tneg_den v x : tden rho v = Some x -> tden rho (tneg v) = Some (- x).
Proof. apply tneg_sound. Qed.
Lemma sem_nfn1 f v :
  sem (nfn1 cfg f v) (fun r => forall x w, tden rho v = Some x -> fn1_sem I f x = Some w -> tden rho r = Some w).
Proof.
  assert (Hat : forall f, sem (atom cfg (DFn1 f v))
            (fun r => forall x w, tden rho v = Some x -> fn1_sem I f x = Some w -> tden rho r = Some w)).
  { intros f0. eapply sem_conseq; [apply sem_atom|]. intros r Hr x w Hx Hw. rewrite Hr. simpl.
    rewrite Hx. exact Hw. }
  assert (Hodd : odd_fn f = true -> sem
     (if tis0 v then ret tzero
      else if is_neg v then r <- atom cfg (DFn1 f (tneg v)) ;; ret (tneg r)
      else atom cfg (DFn1 f v))
     (fun r => forall x w, tden rho v = Some x -> fn1_sem I f x = Some w -> tden rho r = Some w)).
  { intros Ho. destruct (tis0 v) eqn:E0.
    { apply sem_ret. intros x w Hx Hw. rewrite (tis0_den _ _ E0 Hx) in Hw.
      rewrite (odd_fn_0 _ _ Ho Hw). apply tden_zero. }
    destruct (is_neg v); [|apply Hat].
    sbind sem_atom. intros r Hr. apply sem_ret. intros x w Hx Hw.
    simpl in Hr. rewrite (tneg_den _ _ Hx) in Hr. simpl in Hr. rewrite (odd_fn_opp _ _ _ Ho Hw) in Hr.
    rewrite (tneg_den _ _ Hr). f_equal. ring. }
  destruct f; cbn [nfn1 odd_fn]; try (apply Hodd; reflexivity); try apply Hat.
  - eapply sem_conseq; [apply sem_tpowq|]. intros r Hr x w Hx Hw. apply (Hr x w Hx).
    simpl in Hw. destruct (Rle_dec 0 x); [|discriminate]. rewrite qpow_sqrt by assumption. exact Hw.
  - eapply sem_conseq; [apply sem_tpowq|]. intros r Hr x w Hx Hw. apply (Hr x w Hx).
    rewrite qpow_cbrt. exact Hw.
  - destruct (tis0 v) eqn:E0; [|apply Hat]. apply sem_ret. intros x w Hx Hw.
    rewrite (tis0_den _ _ E0 Hx) in Hw. simpl in Hw. rewrite exp_0 in Hw. injection Hw as <-. apply tden_one.
  - destruct (teqb v tone) eqn:E0; [|apply Hat]. apply teqb_eq in E0. subst v. apply sem_ret.
    intros x w Hx Hw. rewrite tden_one in Hx. injection Hx as <-. simpl in Hw.
    destruct (Rlt_dec 0 1); [|discriminate]. rewrite ln_1 in Hw. injection Hw as <-. apply tden_zero.
  - sbind sem_get. intros t Ht. destruct (tis0 v) eqn:E0.
    { apply sem_ret. intros x w Hx Hw. rewrite (tis0_den _ _ E0 Hx) in Hw. simpl in Hw.
      rewrite Rabs_R0 in Hw. injection Hw as <-. apply tden_zero. }
    destruct v as [c m]. cbn [fst snd].
    destruct (is_nn (mflag t m)) eqn:En.
    + apply sem_ret. intros x w Hx Hw. apply tden_inv in Hx. destruct Hx as (u & Hu & ->).
      simpl in Hw. injection Hw as <-. rewrite (mono_tden _ _ _ Hu), Q2R_qabs, Rabs_mult. do 2 f_equal.
      symmetry. apply Rabs_right. apply Rle_ge. eapply fholds_nn; [|exact En]. eapply mflag_sound; eauto.
    + sbind sem_intern. intros a Ha. apply sem_ret. intros x w Hx Hw.
      apply tden_inv in Hx. destruct Hx as (u & Hu & ->).
      simpl in Hw. injection Hw as <-.
      cbn [dden] in Ha. rewrite (mono_tden _ _ _ Hu), Q2R_q1, Rmult_1_l in Ha. simpl in Ha.
      pose proof (tden_atom rho a) as Ht1. unfold tden in Ht1. cbn [fst snd] in Ht1.
      destruct (mden rho [(a, q1)]) as [y|] eqn:Ey; [|congruence].
      rewrite (mono_tden _ _ _ Ey). rewrite Ha, Q2R_q1 in Ht1. injection Ht1 as Ht1.
      rewrite Q2R_qabs, Rabs_mult. do 2 f_equal. lra.
Qed.
(** A condition comparing a term with 0. *)
Lemma tneg_neg v : tneg (tneg v) = v.
Proof. destruct v as [[n d] m]. unfold tneg, qopp, Qopp. cbn. rewrite Z.opp_involutive. reflexivity. Qed.
Lemma sign_cond_sound t c a x bb : con t -> sign_cond t c a = true -> cden rho c = Some bb -> tden rho a = Some x ->
  if bb : bool then 0 <= x else x <= 0.
Proof.
  intros Ht Hs Hc Ha. unfold sign_cond in Hs.
  assert (G : forall v, negb (tis0 a) && teqb v (tprim t a) = true ->
            exists p w, tden rho v = Some w /\ 0 < p /\ x = p * w).
  { intros v H. apply andb_true_iff in H. destruct H as [H0 H]. apply teqb_eq in H. subst v.
    apply negb_true_iff in H0. exact (tprim_sound I B rho t Ht a _ Ha H0). }
  destruct c; try discriminate; destruct (G _ Hs) as (p & w & Hw & Hp & ->);
    cbn [cden] in Hc; rewrite Hw in Hc; cbn [option_map] in Hc; injection Hc as <-.
  - destruct (Rle_dec 0 w) as [L|L].
    + rewrite Rleb_true by exact L. apply Rmult_le_pos; lra.
    + rewrite Rleb_false by exact L. pose proof (Rmult_le_pos p (- w)). lra.
  - destruct (Rlt_dec 0 w) as [L|L].
    + rewrite Rltb_true by exact L. apply Rmult_le_pos; lra.
    + rewrite Rltb_false by exact L. pose proof (Rmult_le_pos p (- w)). lra.
Qed.
Lemma sem_nite c a b :
  sem (nite cfg c a b) (fun r => forall bb z, cden rho c = Some bb ->
      tden rho (if bb : bool then a else b) = Some z -> tden rho r = Some z).
Proof.
  assert (Hgen : sem (t <- get;;
      let a := assume cfg 20 t c true a in
      let b := assume cfg 20 t c false b in
      if teqb a b then ret a
      else if teqb b (tneg a) && sign_cond t c a then nfn1 cfg FAbs a
      else if teqb b (tneg a) && sign_cond t c b then r <- nfn1 cfg FAbs a ;; ret (tneg r)
      else
        match as_ite t b with
        | Some (k, x, y) =>
            if is_excl cfg c k && (match ccmp k c with Lt => true | _ => false end) then
              z <- ite0 cfg c a y ;; ite0 cfg k x z
            else ite0 cfg c a b
        | None => ite0 cfg c a b
        end)
     (fun r => forall bb z, cden rho c = Some bb ->
      tden rho (if bb : bool then a else b) = Some z -> tden rho r = Some z)).
  { sbind sem_get. intros t Ht. cbv zeta.
    set (a' := assume cfg 20 t c true a). set (b' := assume cfg 20 t c false b).
    assert (Hab : forall bb z, cden rho c = Some bb -> tden rho (if bb : bool then a else b) = Some z ->
                    tden rho (if bb then a' else b') = Some z).
    { intros [] z Hc Hz; unfold a', b'; apply assume_sound; assumption. }
    clearbody a' b'.
    assert (Hdef : sem (ite0 cfg c a' b') (fun r => forall bb z, cden rho c = Some bb ->
                     tden rho (if bb : bool then a else b) = Some z -> tden rho r = Some z)).
    { eapply sem_conseq; [apply sem_ite0|]. intros r Hr bb z Hc Hz. eapply Hr; eauto. }
    destruct (teqb a' b') eqn:Et.
    { apply teqb_eq in Et. subst b'. apply sem_ret. intros bb z Hc Hz. specialize (Hab bb z Hc Hz).
      destruct bb; exact Hab. }
    destruct (teqb b' (tneg a') && sign_cond t c a') eqn:Es.
    { apply andb_true_iff in Es. destruct Es as [Eb Es]. apply teqb_eq in Eb. subst b'.
      eapply sem_conseq; [apply sem_nfn1|]. intros r Hr bb z Hc Hz. specialize (Hab bb z Hc Hz).
      destruct bb.
      - apply (Hr z z Hab). cbn [fn1_sem]. f_equal. apply Rabs_right, Rle_ge.
        exact (sign_cond_sound t c a' z true Ht Es Hc Hab).
      - apply tneg_sound in Hab. rewrite tneg_neg in Hab.
        apply (Hr _ z Hab). cbn [fn1_sem]. f_equal. rewrite Rabs_Ropp. apply Rabs_right, Rle_ge.
        pose proof (sign_cond_sound t c a' _ false Ht Es Hc Hab) as H. cbv beta iota in H. lra. }
    clear Es. destruct (teqb b' (tneg a') && sign_cond t c b') eqn:Es.
    { apply andb_true_iff in Es. destruct Es as [Eb Es]. apply teqb_eq in Eb.
      sbind sem_nfn1. intros r Hr. apply sem_ret. intros bb z Hc Hz. specialize (Hab bb z Hc Hz).
      destruct bb.
      - pose proof (tneg_sound _ _ _ Hab) as Hb. rewrite <- Eb in Hb.
        pose proof (sign_cond_sound t c b' _ true Ht Es Hc Hb) as H. cbv beta iota in H.
        specialize (Hr z (Rabs z) Hab eq_refl). rewrite (tneg_sound _ _ _ Hr). f_equal. rewrite Rabs_left1 by lra. ring.
      - pose proof (sign_cond_sound t c b' _ false Ht Es Hc Hab) as H. cbv beta iota in H.
        assert (Ha : tden rho a' = Some (- z)) by (rewrite Eb in Hab; apply tneg_sound in Hab; rewrite tneg_neg in Hab; exact Hab).
        specialize (Hr (- z) (Rabs (- z)) Ha eq_refl). rewrite (tneg_sound _ _ _ Hr). f_equal. rewrite Rabs_right by lra. ring. }
    clear Es. destruct (as_ite t b') as [[[k x] y]|] eqn:Ei; [|exact Hdef].
    destruct (is_excl cfg c k && _) eqn:Ex; [|exact Hdef].
    apply andb_true_iff in Ex. destruct Ex as [Ex _].
    destruct (is_excl_sound _ _ Ex) as (p & q & Hp & Hq & Hpq).
    sbind sem_ite0. intros z0 Hz0. eapply sem_conseq; [apply sem_ite0|]. intros r Hr bb z Hc Hz.
    specialize (Hab bb z Hc Hz). rewrite Hc in Hp. injection Hp as <-.
    destruct bb.
    - simpl in Hpq. subst q. apply (Hr false); [exact Hq|]. apply (Hz0 true); assumption.
    - destruct (as_ite_sound _ _ _ _ _ _ Ht Ei Hab) as (bk & Hbk & Hv).
      apply (Hr bk); [exact Hbk|]. destruct bk; [exact Hv|]. apply (Hz0 false); assumption. }
  unfold nite. destruct c; try exact Hgen.
  - apply sem_ret. intros bb z Hc Hz. simpl in Hc. injection Hc as <-. exact Hz.
  - apply sem_ret. intros bb z Hc Hz. simpl in Hc. injection Hc as <-. exact Hz.
Qed.
Lemma sem_npow b x :
  sem (npow cfg b x) (fun r => forall u v w, tden rho b = Some u -> tden rho x = Some v ->
                               pypow u v = Some w -> tden rho r = Some w).
Proof.
  unfold npow. destruct x as [q m]. cbn [fst snd].
  assert (Hgen : sem (if teqb b tone then ret tone else atom cfg (DPow b (q, m)))
     (fun r => forall u v w, tden rho b = Some u -> tden rho (q, m) = Some v ->
                               pypow u v = Some w -> tden rho r = Some w)).
  { destruct (teqb b tone) eqn:E.
    - apply teqb_eq in E. subst b. apply sem_ret. intros u v w Hu Hv Hw.
      rewrite tden_one in Hu. injection Hu as <-. unfold pypow in Hw. destruct (Rlt_dec 0 1); [|lra].
      rewrite Rpower_1_l in Hw. injection Hw as <-. apply tden_one.
    - eapply sem_conseq; [apply sem_atom|]. intros r Hr u v w Hu Hv Hw. rewrite Hr. cbn [dden].
      rewrite Hu, Hv. exact Hw. }
  destruct m as [|p m]; [|exact Hgen].
  eapply sem_conseq; [apply sem_tpowq|]. intros r Hr u v w Hu Hv Hw.
  apply tden_inv in Hv. destruct Hv as (z & Hz & ->). simpl in Hz. injection Hz as <-.
  rewrite Rmult_1_r in Hw. apply pypow_qpow in Hw. eapply Hr; eauto.
Qed.
End Cfg.
End Sem.
