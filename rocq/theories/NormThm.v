(** Soundness of the normaliser, third part: programs, and the equality checker. *)
From Coq Require Import Wf_nat Reals List Bool NArith ZArith QArith Qreals Lra Lia FMapPositive.
From Verif Require Import Bytes Syntax Parser Semantics RPow Norm NormSound NormCheck.
Import ListNotations.
Open Scope R_scope.

Lemma grows_rr m : grows m -> grows (rr m).
Proof. intros H. unfold rr. grow. Qed.
Lemma grows_bb m : grows m -> grows (bb m).
Proof. intros H. unfold bb. grow. Qed.
#[export] Hint Extern 2 (grows (rr _)) => (simple apply grows_rr; auto with grow nocore) : grow.
#[export] Hint Extern 2 (grows (bb _)) => (simple apply grows_bb; auto with grow nocore) : grow.

Definition base_env (B : attrs) : env := fun x => opt_val (B x).

Section Prog.
Variable I : interp.
Variable B : attrs.
Variable rho : valuation.
Notation sem := (sem I B rho).
Notation con := (consistent I B rho).

Definition svden (s : sval) (v : val) : Prop :=
  match s, v with
  | SR t, VR x => tden rho t = Some x
  | SB c, VB b => cden rho c = Some b
  | _, _ => False
  end.
Definition lvden (l : lval) (v : val) : Prop :=
  match l, v with
  | LV s, _ => svden s v
  | LSum l, VR x => lden rho l = Some x
  | LSum _, VB _ => False
  end.
Definition envrel (se : senv) (e : env) : Prop :=
  forall x v, e x = Some v ->
    match PM.find (enc x) se with
    | Some s => svden s v
    | None => base_env B x = Some v
    end.

Section Cfg.
Variable cfg : config.
Hypothesis Hknown : forall c b, In (c, b) (known cfg) -> cden rho c = Some b.
Hypothesis Hexcl : forall c d, In (c, d) (excl cfg) ->
  exists x y, cden rho c = Some x /\ cden rho d = Some y /\ x && y = false.

Ltac sbind L := eapply sem_bind; [intros; solve [grow]|apply L|].

Lemma sem_force x : sem (force cfg x) (fun s => forall v, lvden x v -> svden s v).
Proof.
  destruct x as [s|l]; simpl.
  - apply sem_ret. auto.
  - sbind sem_tsum. intros r Hr. apply sem_ret. intros [x|b] H; [|contradiction]. apply Hr, H.
Qed.
Lemma sem_force_r x : sem (force_r cfg x) (fun t => forall r, lvden x (VR r) -> tden rho t = Some r).
Proof.
  unfold force_r. sbind sem_force. intros s Hs. destruct s; [|apply sem_fail].
  apply sem_ret. intros r H. exact (Hs _ H).
Qed.
Lemma sem_force_b x : sem (force_b cfg x) (fun c => forall b, lvden x (VB b) -> cden rho c = Some b).
Proof.
  unfold force_b. sbind sem_force. intros s Hs. destruct s; [apply sem_fail|].
  apply sem_ret. intros r H. exact (Hs _ H).
Qed.
Lemma sem_aslist x : sem (aslist x) (fun l => forall r, lvden x (VR r) -> lden rho l = Some r).
Proof.
  destruct x as [[t|c]|l]; simpl.
  - apply sem_ret. intros r H. cbn [lvden svden] in H. cbn [lden]. rewrite H. f_equal; ring.
  - apply sem_fail.
  - apply sem_ret. auto.
Qed.
Lemma sem_rr m (P : lval -> Prop) (Q : term -> Prop) :
  sem m Q -> (forall t, Q t -> P (LV (SR t))) -> sem (rr m) P.
Proof. intros H HQ. unfold rr. sbind H. intros t Ht. apply sem_ret. auto. Qed.
Lemma sem_bb m (P : lval -> Prop) (Q : cond -> Prop) :
  sem m Q -> (forall t, Q t -> P (LV (SB t))) -> sem (bb m) P.
Proof. intros H HQ. unfold bb. sbind H. intros t Ht. apply sem_ret. auto. Qed.

Ltac inv2 H :=
  unfold lift1, lift2 in H;
  repeat match type of H with
  | match ?o with Some _ => _ | None => None end = Some _ => destruct o as [[|]|]; try discriminate
  | (match ?o with VR _ => _ | VB _ => _ end) = Some _ => destruct o; try discriminate
  end.

Lemma lift1_inv f o v : lift1 f o = Some v -> exists x z, o = Some (VR x) /\ f x = Some z /\ v = VR z.
Proof.
  unfold lift1. destruct o as [[x|]|]; try discriminate. destruct (f x) as [z|] eqn:E; [|discriminate].
  intros H. injection H as <-. eauto.
Qed.
Lemma lift2_inv f o p v : lift2 f o p = Some v ->
  exists x y z, o = Some (VR x) /\ p = Some (VR y) /\ f x y = Some z /\ v = VR z.
Proof.
  unfold lift2. destruct o as [[x|]|]; try discriminate. destruct p as [[y|]|]; try discriminate.
  destruct (f x y) as [z|] eqn:E; [|discriminate]. intros H. injection H as <-. eauto 10.
Qed.

Lemma sem_nexpr se e0 e :
  envrel se e0 -> sem (nexpr cfg se e) (fun l => forall v, eval I e0 e = Some v -> lvden l v).
Proof.
  intros Henv. induction e; cbn [nexpr eval].
  - (* ENum *) apply sem_ret. intros v H. injection H as <-. cbn [lvden svden].
    destruct (qis0 q) eqn:E; [rewrite (qis0_true _ E); apply tden_zero|].
    cbn. f_equal; ring.
  - (* EPi *) eapply sem_rr; [apply sem_atom|]. intros t Ht v H. injection H as <-. exact Ht.
  - (* EVar *)
    destruct (PM.find (enc x) se) as [s|] eqn:E.
    + apply sem_ret. intros v H. specialize (Henv _ _ H). rewrite E in Henv. exact Henv.
    + eapply sem_rr; [apply sem_atom|]. intros t Ht v H. specialize (Henv _ _ H). rewrite E in Henv.
      unfold base_env, opt_val in Henv. simpl in Ht. destruct (B x) as [r|]; [|discriminate].
      injection Henv as <-. exact Ht.
  - (* ENeg *) sbind IHe. intros l Hl. sbind sem_aslist. intros k Hk. apply sem_ret. intros v H.
    apply lift1_inv in H. destruct H as (x & z & E & Ez & ->). injection Ez as <-.
    simpl. apply lden_neg, Hk, Hl, E.
  - (* EAdd *) sbind IHe1. intros l Hl. sbind IHe2. intros k Hk. sbind sem_aslist. intros l' Hl'.
    sbind sem_aslist. intros k' Hk'. apply sem_ret. intros v H.
    apply lift2_inv in H. destruct H as (x & y & z & E1 & E2 & Ez & ->). injection Ez as <-.
    simpl. apply lden_app; [apply Hl', Hl, E1|apply Hk', Hk, E2].
  - (* ESub *) sbind IHe1. intros l Hl. sbind IHe2. intros k Hk. sbind sem_aslist. intros l' Hl'.
    sbind sem_aslist. intros k' Hk'. apply sem_ret. intros v H.
    apply lift2_inv in H. destruct H as (x & y & z & E1 & E2 & Ez & ->). injection Ez as <-.
    simpl. unfold Rminus. apply lden_app; [apply Hl', Hl, E1|]. apply lden_neg, Hk', Hk, E2.
  - (* EMul *) sbind IHe1. intros l Hl. sbind IHe2. intros k Hk. sbind sem_force_r. intros l' Hl'.
    sbind sem_force_r. intros k' Hk'. sbind sem_get. intros t Ht. apply sem_ret. intros v H.
    apply lift2_inv in H. destruct H as (x & y & z & E1 & E2 & Ez & ->). injection Ez as <-.
    simpl. apply (tmul_sound I B rho t Ht); auto.
  - (* EDiv *) sbind IHe1. intros l Hl. sbind IHe2. intros k Hk. sbind sem_force_r. intros l' Hl'.
    sbind sem_force_r. intros k' Hk'. sbind sem_get. intros t Ht. apply sem_ret. intros v H.
    apply lift2_inv in H. destruct H as (x & y & z & E1 & E2 & Ez & ->).
    destruct (Req_EM_T y 0) as [|Hy]; [discriminate|]. injection Ez as <-.
    simpl. unfold Rdiv. apply (tmul_sound I B rho t Ht); auto. apply (tinv_sound I B rho t Ht); auto.
  - (* EPow *) sbind IHe1. intros l Hl. sbind IHe2. intros k Hk. sbind sem_force_r. intros l' Hl'.
    sbind sem_force_r. intros k' Hk'. eapply sem_rr; [apply sem_npow|]. intros t Ht v H.
    apply lift2_inv in H. destruct H as (x & y & z & E1 & E2 & Ez & ->).
    simpl. eapply Ht; eauto.
  - (* ECmp *) sbind IHe1. intros l Hl. sbind IHe2. intros k Hk. sbind sem_force_r. intros l' Hl'.
    sbind sem_force_r. intros k' Hk'. eapply sem_bb; [apply sem_ncmp; assumption|]. intros t Ht v H.
    destruct (eval I e0 e1) as [[x|]|]; try discriminate. destruct (eval I e0 e2) as [[y|]|]; try discriminate.
    injection H as <-. simpl. apply Ht; auto.
  - (* EOr *) sbind IHe1. intros l Hl. sbind IHe2. intros k Hk. sbind sem_force_b. intros l' Hl'.
    sbind sem_force_b. intros k' Hk'. apply sem_ret. intros v H.
    destruct (eval I e0 e1) as [[|x]|]; try discriminate. destruct (eval I e0 e2) as [[|y]|]; try discriminate.
    injection H as <-. simpl. apply nor_sound; auto.
  - (* EAnd *) sbind IHe1. intros l Hl. sbind IHe2. intros k Hk. sbind sem_force_b. intros l' Hl'.
    sbind sem_force_b. intros k' Hk'. apply sem_ret. intros v H.
    destruct (eval I e0 e1) as [[|x]|]; try discriminate. destruct (eval I e0 e2) as [[|y]|]; try discriminate.
    injection H as <-. simpl. apply nand_sound; auto.
  - (* ECond *) sbind IHe1. intros c Hc. sbind IHe2. intros l Hl. sbind IHe3. intros k Hk.
    sbind sem_force_b. intros c' Hc'. sbind sem_force_r. intros l' Hl'. sbind sem_force_r. intros k' Hk'.
    eapply sem_rr; [apply sem_nite; assumption|]. intros t Ht v H.
    destruct (eval I e0 e1) as [[|b]|]; try discriminate.
    assert (Hb : cden rho c' = Some b) by (apply Hc', Hc; reflexivity).
    destruct b; apply lift1_inv in H; destruct H as (x & z & E & Ez & ->); injection Ez as <-;
      apply (Ht _ _ Hb); auto.
  - (* EFn1 *) sbind IHe. intros l Hl. sbind sem_force_r. intros l' Hl'.
    eapply sem_rr; [apply sem_nfn1|]. intros t Ht v H.
    apply lift1_inv in H. destruct H as (x & z & E & Ez & ->). simpl. eapply Ht; eauto.
  - (* EFn2 *) sbind IHe1. intros l Hl. sbind IHe2. intros k Hk. sbind sem_force_r. intros l' Hl'.
    sbind sem_force_r. intros k' Hk'. eapply sem_rr; [apply sem_atom|]. intros t Ht v H.
    apply lift2_inv in H. destruct H as (x & y & z & E1 & E2 & Ez & ->).
    simpl. rewrite Ht. simpl. rewrite (Hl' x), (Hk' y) by auto. exact Ez.
  - (* EFn3 *) sbind IHe1. intros l Hl. sbind IHe2. intros k Hk. sbind IHe3. intros m Hm.
    sbind sem_force_r. intros l' Hl'. sbind sem_force_r. intros k' Hk'. sbind sem_force_r. intros m' Hm'.
    eapply sem_rr; [apply sem_atom|]. intros t Ht v H.
    destruct (eval I e0 e1) as [[x|]|]; try discriminate. destruct (eval I e0 e2) as [[y|]|]; try discriminate.
    destruct (eval I e0 e3) as [[z|]|]; try discriminate.
    destruct (op3 I f x y z) as [w|] eqn:E; [|discriminate]. injection H as <-.
    simpl. rewrite Ht. simpl. rewrite (Hl' x), (Hk' y), (Hm' z) by auto. exact E.
Qed.
Lemma sem_nval se e0 e :
  envrel se e0 -> sem (nval cfg se e) (fun s => forall v, eval I e0 e = Some v -> svden s v).
Proof.
  intros H. unfold nval. sbind sem_nexpr; [exact H|]. intros l Hl. eapply sem_conseq; [apply sem_force|].
  intros s Hs v Hv. apply Hs, Hl, Hv.
Qed.
Lemma envrel_add se e0 x s v :
  envrel se e0 -> (forall w, v = Some w -> svden s w) -> envrel (PM.add (enc x) s se) (upd e0 x v).
Proof.
  intros H Hv y w Hy. unfold upd in Hy. destruct (beqb y x) eqn:E.
  - apply beqb_eq in E. subst y. rewrite PM.gss. auto.
  - rewrite PM.gso; [apply H, Hy|]. intros Heq. apply enc_inj in Heq. subst.
    rewrite beqb_refl in E. discriminate.
Qed.
Lemma sem_nexec se e0 p : envrel se e0 -> sem (nexec cfg se p) (fun se' => envrel se' (exec I e0 p)).
Proof.
  revert se e0; induction p as [|[x e] p IH]; intros se e0 H; cbn [nexec exec].
  - apply sem_ret, H.
  - sbind sem_nval; [exact H|]. intros s Hs. apply IH. apply envrel_add; auto.
Qed.
Lemma envrel_empty : envrel (PM.empty _) (base_env B).
Proof. intros x v H. rewrite PM.gempty. exact H. Qed.

(** The concrete inputs of a run: those listed in [run_init] are the values of the
    given expressions over the base variables, all others are base variables. *)
Definition init_ok (l : list (bstr * expr)) (e0 : env) : Prop :=
  forall x v, e0 x = Some v ->
    match assoc x l with
    | Some e => eval I (base_env B) e = Some v
    | None => base_env B x = Some v
    end.
Lemma sem_ninit l e0 : init_ok l e0 -> sem (ninit cfg l (PM.empty _)) (fun se => envrel se e0).
Proof.
  revert e0; induction l as [|[x e] l IH]; intros e0 H; cbn [ninit].
  - apply sem_ret. intros x v Hv. rewrite PM.gempty. exact (H x v Hv).
  - sbind sem_nval; [apply envrel_empty|]. intros s Hs.
    sbind (IH (upd e0 x None)).
    { intros y v Hy. unfold upd in Hy. destruct (beqb y x) eqn:E; [discriminate|].
      specialize (H y v Hy). simpl in H. rewrite E in H. exact H. }
    intros se Hse. apply sem_ret. intros y v Hy. specialize (H y v Hy). simpl in H.
    specialize (Hse y v). unfold upd in Hse. destruct (beqb y x) eqn:E.
    + apply beqb_eq in E. subst y. rewrite PM.gss. auto.
    + rewrite PM.gso; [exact (Hse Hy)|]. intros Heq. apply enc_inj in Heq. subst. rewrite beqb_refl in E. discriminate.
Qed.
Lemma sem_nrun r e0 :
  init_ok (run_init r) e0 ->
  sem (nrun cfg r) (fun s => forall x, result I e0 (run_prog r) = Some x -> svden s (VR x)).
Proof.
  intros H. unfold nrun. sbind sem_ninit; [exact H|]. intros se Hse.
  eapply sem_bind; [intros; grow|apply sem_nexec, Hse|]. intros se' Hse'.
  destruct (PM.find (enc "res"%b) se') as [[t|]|] eqn:E; try apply sem_fail.
  apply sem_ret. intros x Hx. unfold result in Hx.
  destruct (exec I e0 (run_prog r) "res"%b) as [[y|]|] eqn:Er; try discriminate. injection Hx as <-.
  specialize (Hse' _ _ Er). rewrite E in Hse'. exact Hse'.
Qed.

(** The environment in which the goals are evaluated. *)
Definition goal_env (inp : bstr -> env) (runs : list run) : env := fun x =>
  match find (fun r => beqb x (run_name r)) runs with
  | Some r => opt_val (result I (inp x) (run_prog r))
  | None => base_env B x
  end.
Lemma sem_nruns inp runs :
  (forall r, In r runs -> init_ok (run_init r) (inp (run_name r))) ->
  sem (nruns cfg runs (PM.empty _)) (fun se => envrel se (goal_env inp runs)).
Proof.
  induction runs as [|r l IH]; intros H; cbn [nruns].
  - apply sem_ret. apply envrel_empty.
  - sbind sem_nrun; [apply H; left; reflexivity|]. intros s Hs.
    sbind IH; [intros r' Hr'; apply H; right; exact Hr'|]. intros se Hse. apply sem_ret.
    intros y v Hy. unfold goal_env in Hy. simpl in Hy. destruct (beqb y (run_name r)) eqn:E.
    + apply beqb_eq in E. subst y. rewrite PM.gss.
      destruct (result I (inp (run_name r)) (run_prog r)) as [x|] eqn:Er; [|discriminate].
      simpl in Hy. injection Hy as <-. apply Hs. reflexivity.
    + rewrite PM.gso; [apply Hse, Hy|]. intros Heq. apply enc_inj in Heq. subst. rewrite beqb_refl in E. discriminate.
Qed.
Lemma sem_ngoals se e0 l :
  envrel se e0 ->
  sem (ngoals cfg se l) (fun b => b = true -> forall e e', In (e, e') l ->
       forall v v', eval I e0 e = Some v -> eval I e0 e' = Some v' -> v = v').
Proof.
  intros He. induction l as [|[a b] l IH]; cbn [ngoals].
  - apply sem_ret. intros _ e e' [].
  - sbind sem_nval; [exact He|]. intros s Hs. sbind sem_nval; [exact He|]. intros s' Hs'.
    sbind IH. intros r Hr. apply sem_ret. intros Hb e e' Hin v v' Hv Hv'.
    apply andb_true_iff in Hb. destruct Hb as [Hb1 Hb2]. destruct Hin as [Hin|Hin]; [|eapply Hr; eauto].
    injection Hin as <- <-. specialize (Hs _ Hv). specialize (Hs' _ Hv').
    destruct s as [t|c], s' as [t'|c']; try discriminate; simpl in Hb1.
    + apply teqb_eq in Hb1. subst t'. destruct v, v'; try contradiction. simpl in *. congruence.
    + apply ceqb_eq in Hb1. subst c'. destruct v, v'; try contradiction. simpl in *. congruence.
Qed.
Lemma sem_ncond e b :
  eval I (base_env B) e = Some (VB b) -> sem (ncond cfg e) (fun c => cden rho c = Some b).
Proof.
  intros H. unfold ncond. sbind sem_nval; [apply envrel_empty|]. intros s Hs.
  destruct s; [apply sem_fail|]. apply sem_ret. exact (Hs _ H).
Qed.
Lemma sem_nknown l :
  (forall e b, In (e, b) l -> eval I (base_env B) e = Some (VB b)) ->
  sem (nknown cfg l) (fun k => forall c b, In (c, b) k -> cden rho c = Some b).
Proof.
  induction l as [|[e b] l IH]; intros H; cbn [nknown].
  - apply sem_ret. intros c b [].
  - sbind sem_ncond; [apply H; left; reflexivity|]. intros c Hc.
    sbind IH; [intros e' b' Hin; apply H; right; exact Hin|]. intros k Hk. apply sem_ret.
    intros c' b' [Hin|Hin]; [congruence|auto].
Qed.
Lemma sem_nexcl l :
  (forall e e', In (e, e') l -> exists x y, eval I (base_env B) e = Some (VB x) /\
     eval I (base_env B) e' = Some (VB y) /\ x && y = false) ->
  sem (nexcl cfg l) (fun k => forall c d, In (c, d) k ->
     exists x y, cden rho c = Some x /\ cden rho d = Some y /\ x && y = false).
Proof.
  induction l as [|[e e'] l IH]; intros H; cbn [nexcl].
  - apply sem_ret. intros c b [].
  - destruct (H e e' (or_introl eq_refl)) as (x & y & Hx & Hy & Hxy).
    sbind sem_ncond; [exact Hx|]. intros c Hc. sbind sem_ncond; [exact Hy|]. intros d Hd.
    sbind IH; [intros a b Hin; apply H; right; exact Hin|]. intros k Hk. apply sem_ret.
    intros c' d' [Hin|Hin]; [|auto]. injection Hin as <- <-. exists x, y. auto.
Qed.
End Cfg.
End Prog.

(** ** A valuation of the final table *)
Lemma pos_lt_wf : well_founded Pos.lt.
Proof.
  apply (well_founded_lt_compat _ Pos.to_nat). intros x y H. lia.
Qed.
Section Exists.
Variable I : interp.
Variable B : attrs.
Variable t : tbl.

Fixpoint vals (n : nat) : valuation := fun a =>
  match n with
  | O => None
  | S n => match lookup t a with Some (d, _) => dden I B (vals n) d | None => None end
  end.
Definition the_val : valuation := fun a => vals (Pos.to_nat a) a.

Lemma mden_ext r s a m : mono_lt a m = true -> (forall b, (b < a)%positive -> r b = s b) -> mden r m = mden s m.
Proof.
  intros H Hrs. induction m as [|[b e] m IH]; [reflexivity|].
  simpl in H. apply andb_true_iff in H. destruct H as [H1 H2]. simpl.
  rewrite (Hrs b) by (apply Pos.ltb_lt, H1). rewrite (IH H2). reflexivity.
Qed.
Lemma tden_ext r s a v : term_lt a v = true -> (forall b, (b < a)%positive -> r b = s b) -> tden r v = tden s v.
Proof. intros H Hrs. unfold tden. rewrite (mden_ext r s a (snd v) H Hrs). reflexivity. Qed.
Lemma lden_ext r s a l : forallb (term_lt a) l = true -> (forall b, (b < a)%positive -> r b = s b) -> lden r l = lden s l.
Proof.
  intros H Hrs. induction l as [|v l IH]; [reflexivity|]. simpl in *.
  apply andb_true_iff in H. destruct H as [H1 H2]. rewrite (tden_ext r s a v H1 Hrs), (IH H2). reflexivity.
Qed.
Lemma cden_ext r s a c : cond_lt a c = true -> (forall b, (b < a)%positive -> r b = s b) -> cden r c = cden s c.
Proof.
  intros H Hrs. induction c; simpl in *; try reflexivity; try (rewrite (tden_ext r s a t0 H Hrs); reflexivity);
    apply andb_true_iff in H; destruct H as [H1 H2]; rewrite IHc1, IHc2 by assumption; reflexivity.
Qed.
Lemma dden_ext r s a d : def_lt a d = true -> (forall b, (b < a)%positive -> r b = s b) -> dden I B r d = dden I B s d.
Proof.
  intros H Hrs. destruct d; cbn [def_lt] in H; repeat rewrite andb_true_iff in H; cbn [dden]; try reflexivity.
  - apply (lden_ext r s a); assumption.
  - rewrite (tden_ext r s a) by assumption. reflexivity.
  - destruct H. rewrite (tden_ext r s a t0), (tden_ext r s a u) by assumption. reflexivity.
  - destruct H as [[? ?] ?]. rewrite (tden_ext r s a t0), (tden_ext r s a u), (tden_ext r s a w) by assumption. reflexivity.
  - destruct H. rewrite (tden_ext r s a t0), (tden_ext r s a u) by assumption. reflexivity.
  - destruct H as [[? ?] ?]. rewrite (cden_ext r s a c), (tden_ext r s a t0), (tden_ext r s a u) by assumption. reflexivity.
  - apply (tden_ext r s a); assumption.
Qed.

Variable fl : list (bstr * flag).
Hypothesis Hok : tbl_ok fl t = true.
Hypothesis Hfl : forall x r, B x = Some r -> fholds (vflag_of fl x) r.

Lemma tbl_ok_at a d f : lookup t a = Some (d, f) ->
  def_lt a d = true /\ flag_le f (dflag (vflag_of fl) t d) = true.
Proof.
  intros H. unfold tbl_ok in Hok. rewrite forallb_forall in Hok.
  apply PM.elements_correct in H. specialize (Hok _ H). simpl in Hok.
  apply andb_true_iff in Hok. exact Hok.
Qed.
Lemma vals_stable a : forall n, (Pos.to_nat a <= n)%nat -> vals n a = the_val a.
Proof.
  induction a as [a IH] using (well_founded_induction pos_lt_wf). intros n Hn. unfold the_val.
  destruct n as [|n]; [lia|]. destruct (Pos.to_nat a) as [|m] eqn:Em; [lia|].
  simpl. destruct (lookup t a) as [[d f]|] eqn:El; [|reflexivity].
  destruct (tbl_ok_at _ _ _ El) as [Hlt _].
  apply (dden_ext _ _ a); [exact Hlt|]. intros b Hb.
  rewrite (IH b Hb n), (IH b Hb m) by lia. reflexivity.
Qed.
Lemma the_val_eq a d f : lookup t a = Some (d, f) -> the_val a = dden I B the_val d.
Proof.
  intros El. unfold the_val at 1. destruct (Pos.to_nat a) as [|m] eqn:Em; [lia|]. simpl. rewrite El.
  destruct (tbl_ok_at _ _ _ El) as [Hlt _].
  apply (dden_ext _ _ a); [exact Hlt|]. intros b Hb. apply vals_stable. lia.
Qed.
Lemma fholds_le f g x : flag_le f g = true -> fholds g x -> fholds f x.
Proof. destruct f, g; simpl; intros; try discriminate; try exact Logic.I; lra. Qed.
Lemma mok_lt a m : mono_lt a m = true -> (forall b, (b < a)%positive -> aok the_val t b) -> mok the_val t m.
Proof.
  intros H Hb b e Hin. apply Hb. unfold mono_lt in H. rewrite forallb_forall in H.
  apply Pos.ltb_lt. exact (H _ Hin).
Qed.
Lemma the_flags a : aok the_val t a.
Proof.
  induction a as [a IH] using (well_founded_induction pos_lt_wf). intros x Hx.
  unfold aflag. destruct (lookup t a) as [[d f]|] eqn:El; [|exact Logic.I].
  destruct (tbl_ok_at _ _ _ El) as [Hlt Hle]. eapply fholds_le; [exact Hle|].
  rewrite (the_val_eq _ _ _ El) in Hx.
  destruct d; cbn [dflag dden def_lt] in *; try exact Logic.I.
  - apply Hfl, Hx.
  - injection Hx as <-. exact PI_RGT_0.
  - injection Hx as <-. apply IZR_pos.
  - eapply lflag_gen; [|exact Hx]. intros v Hv. rewrite forallb_forall in Hlt. eapply mok_lt; eauto.
  - destruct f0; try exact Logic.I; destruct (tden the_val t0); try discriminate; injection Hx as <-.
    + apply exp_pos.
    + apply Rabs_pos.
  - apply andb_true_iff in Hlt. destruct Hlt as [Hlt Hu]. apply andb_true_iff in Hlt. destruct Hlt as [_ Ht0].
    apply fmin_sound. destruct (cden the_val c) as [[]|]; [left|right|discriminate].
    + eapply tflag_gen; [|exact Hx]. eapply mok_lt; eauto.
    + eapply tflag_gen; [|exact Hx]. eapply mok_lt; eauto.
  - eapply tflag_gen; [|exact Hx]. eapply mok_lt; eauto.
Qed.
Lemma the_val_consistent : consistent I B the_val t.
Proof.
  intros a d f El. split; [eapply the_val_eq, El|].
  intros v Hv. pose proof (the_flags a v Hv) as H. unfold aflag in H. rewrite El in H. exact H.
Qed.
End Exists.

(** ** The equality checker is sound *)
Record problem_holds (I : interp) (B : attrs) (inp : bstr -> env) (p : problem) : Prop := {
  ph_flags : forall x r, B x = Some r -> fholds (vflag_of (pb_flags p) x) r;
  ph_known : forall e b, In (e, b) (pb_known p) -> eval I (base_env B) e = Some (VB b);
  ph_excl : forall e e', In (e, e') (pb_excl p) -> exists x y,
     eval I (base_env B) e = Some (VB x) /\ eval I (base_env B) e' = Some (VB y) /\ x && y = false;
  ph_runs : forall r, In r (pb_runs p) -> init_ok I B (run_init r) (inp (run_name r)) }.

Theorem check_sound I B inp p :
  check p = true -> problem_holds I B inp p ->
  forall e e', In (e, e') (pb_goals p) -> forall v v',
    eval I (goal_env I B inp (pb_runs p)) e = Some v ->
    eval I (goal_env I B inp (pb_runs p)) e' = Some v' -> v = v'.
Proof.
  unfold check. intros H [Hfl Hk Hx Hr].
  destruct (nproblem p empty_tbl) as [[[] t]|] eqn:E; try discriminate.
  pose proof (the_val_consistent I B t (pb_flags p) H Hfl) as Hc.
  set (rho := the_val I B t) in *. clearbody rho.
  assert (Hs : sem I B rho (nproblem p) (fun b => b = true -> forall e e', In (e, e') (pb_goals p) ->
       forall v v', eval I (goal_env I B inp (pb_runs p)) e = Some v ->
                    eval I (goal_env I B inp (pb_runs p)) e' = Some v' -> v = v')).
  { unfold nproblem. cbv zeta.
    eapply sem_bind; [intros; solve [grow]|apply sem_nknown; [intros ? ? []|intros ? ? []|exact Hk]|].
    intros k Hk'.
    eapply sem_bind; [intros; solve [grow]|apply sem_nexcl; [intros ? ? []|intros ? ? []|exact Hx]|].
    intros x Hx'.
    eapply sem_bind; [intros; solve [grow]|apply sem_nruns; [exact Hk'|exact Hx'|exact Hr]|].
    intros se Hse. apply sem_ngoals; assumption. }
  exact (Hs _ _ _ E Hc eq_refl).
Qed.
