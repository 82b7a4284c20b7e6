(** Formulas that certainly have no value at one rational point: a division by zero, a logarithm
    of a number that is not positive, a root of a negative number or a negative power of zero on
    the path that produces the result. *)
From Coq Require Import Reals ZArith NArith QArith Qreals Bool List Lra Lia.
From Verif Require Import Bytes Syntax Parser PostProcess Src Ast Semantics Free RPow Families
  Interval IntervalThm IntervalThm2 Absint AbsintThm AbsintThm2 AbsintThm3 Defined Problems Refute.
Import ListNotations.
Open Scope R_scope.

Section Precision.
Context {prc : setting} {pik : pi_known}.

(** ** Statements *)
Definition undefined_pol (f : source) : Prop :=
  exists A a, zeta_ok A /\ pol_ok a /\ above_threshold A a /\ not_clipped A a /\
  forall I, ops_ok I -> pol f I A a = None.
Definition undefined_unpol (f : source) : Prop :=
  exists A u d, zeta_ok A /\ 0 < u_r u /\ onneg (u_s u) /\ onneg (u_tau u) /\ A "p.dens_threshold"%b = Some d /\ d < u_r u / 2 /\
  forall I, ops_ok I -> unpol f I A u = None.

(** ** The checker *)
Definition is_zero (v : ainfo) : bool := lo_nonneg (as_itv v) && lo_nonneg (ineg (as_itv v)).
Definition not_pos (v : ainfo) : bool := lo_nonneg (ineg (as_itv v)).
Definition is_neg (v : ainfo) : bool := lo_pos (ineg (as_itv v)).
Section None_.
Variable val : expr -> ainfo.
Variable dead : list bstr.
Fixpoint surely_none (e : expr) : bool :=
  match e with
  | ENum _ | EPi => false
  | EVar x => mem x dead
  | ENeg a => surely_none a
  | EAdd a b | ESub a b | EMul a b | ECmp _ a b | EOr a b | EAnd a b | EFn2 _ a b => surely_none a || surely_none b
  | EDiv a b => surely_none a || surely_none b || is_zero (val b)
  | EPow a b => surely_none a || surely_none b || is_zero (val a) && is_neg (val b)
  | ECond c a b =>
      surely_none c ||
      match fst (val c) with
      | AB (Some true) _ => surely_none a
      | AB (Some false) _ => surely_none b
      | _ => surely_none a && surely_none b end
  | EFn1 f a => surely_none a ||
      match f with FLog => not_pos (val a) | FSqrt => is_neg (val a) | _ => false end
  | EFn3 _ a b c => surely_none a || surely_none b || surely_none c
  end.
End None_.
Definition without (x : bstr) (l : list bstr) : list bstr := filter (fun y => negb (beqb y x)) l.
Fixpoint dead_run (env : aenv) (dead : list bstr) (p : program) : list bstr :=
  match p with
  | [] => dead
  | (x, e) :: p =>
      let v := aev [SPos] env [] 0 [] e in
      let d := surely_none (aev [SPos] env [] 0 []) dead e in
      dead_run ((x, v) :: env) (if d then x :: dead else without x dead) p
  end.

Section Ok.
Variable I : interp.
Hypothesis HI : ops_ok I.
Section Env.
Variable rho : Semantics.env.
Variable env : aenv.
Variable dead : list bstr.
Hypothesis Henv : forall x, fine [1] (rho x) (alook env x).
Hypothesis Hdead : forall x, mem x dead = true -> rho x = None.
Local Notation val := (aev [SPos] env [] 0 []).
Lemma val_ok e : fine [1] (eval I rho e) (val e).
Proof.
  apply (aev_ok I HI [1] headed1 [SPos] sorts1 rho env [] Henv); [intros x f Hx; discriminate|]. intros f i x [].
Qed.
Lemma val_in e x : eval I rho e = Some (VR x) -> inside (as_itv (val e)) x.
Proof. intros H. exact (as_itv_ok _ _ _ _ (val_ok e) H). Qed.
Lemma zero_val e x : is_zero (val e) = true -> eval I rho e = Some (VR x) -> x = 0.
Proof.
  intros H E. apply andb_prop in H. destruct H as [A B]. pose proof (val_in _ _ E) as J.
  pose proof (lo_nonneg_ok _ _ A J). pose proof (lo_nonneg_ok _ _ B (ineg_ok _ _ J)). lra.
Qed.
Lemma none_ok e : surely_none val dead e = true -> eval I rho e = None.
Proof.
  induction e; cbn [surely_none eval]; intros H; try discriminate; try exact (Hdead _ H);
    repeat match goal with H : _ || _ = true |- _ => apply orb_prop in H; destruct H as [H|H] end;
    repeat match goal with IH : surely_none _ _ ?e = true -> _, H : surely_none _ _ ?e = true |- _ => rewrite (IH H); clear H end;
    try reflexivity;
    try (destruct (eval I rho e1) as [[|]|]; reflexivity);
    try (destruct (eval I rho e1) as [[|]|]; destruct (eval I rho e2) as [[|]|]; reflexivity).
  - (* EDiv *)
    destruct (eval I rho e1) as [[x|]|]; [|destruct (eval I rho e2) as [[|]|]; reflexivity|destruct (eval I rho e2) as [[|]|]; reflexivity].
    destruct (eval I rho e2) as [[y|]|] eqn:E; [|reflexivity|reflexivity]. cbn [lift2]. rewrite (zero_val _ _ H E).
    destruct (Req_EM_T 0 0); [reflexivity|contradiction].
  - (* EPow *)
    apply andb_prop in H. destruct H as [H1 H2].
    destruct (eval I rho e1) as [[x|]|] eqn:E1; [|destruct (eval I rho e2) as [[|]|]; reflexivity|destruct (eval I rho e2) as [[|]|]; reflexivity].
    destruct (eval I rho e2) as [[y|]|] eqn:E2; [|reflexivity|reflexivity]. cbn [lift2]. rewrite (zero_val _ _ H1 E1).
    pose proof (lo_pos_ok _ _ H2 (ineg_ok _ _ (val_in _ _ E2))). unfold pypow.
    destruct (Rlt_dec 0 0); [lra|]. destruct (Req_EM_T 0 0); [|lra]. destruct (Rlt_dec 0 y); [lra|]. destruct (Req_EM_T y 0); [lra|].
    destruct (Req_EM_T y _); reflexivity.
  - (* ECond *)
    pose proof (val_ok e1) as [G _]. destruct (fst (val e1)) as [i d|[[|]|] d|]; cbn [good] in G.
    all: try (apply andb_prop in H; destruct H as [Ha Hb]; rewrite (IHe2 Ha), (IHe3 Hb)).
    all: try (destruct (eval I rho e1) as [[r|[|]]|]; reflexivity).
    + rewrite (IHe2 H). destruct (eval I rho e1) as [[r|t]|]; try reflexivity. rewrite (G _ eq_refl). reflexivity.
    + rewrite (IHe3 H). destruct (eval I rho e1) as [[r|t]|]; try reflexivity. rewrite (G _ eq_refl). reflexivity.
  - (* EFn1 *)
    destruct (eval I rho e) as [[x|]|] eqn:E; [|reflexivity|reflexivity]. cbn [lift1].
    destruct f; try discriminate; cbn [fn1_sem].
    + pose proof (lo_pos_ok _ _ H (ineg_ok _ _ (val_in _ _ E))). destruct (Rle_dec 0 x); [lra|reflexivity].
    + pose proof (lo_nonneg_ok _ _ H (ineg_ok _ _ (val_in _ _ E))). destruct (Rlt_dec 0 x); [lra|reflexivity].
Qed.
End Env.

Lemma mem_without x y l : mem y (without x l) = true -> beqb y x = false /\ mem y l = true.
Proof.
  unfold mem, without. intros H. apply existsb_exists in H. destruct H as (z & Hz & E). apply beqb_eq in E. subst z.
  apply filter_In in Hz. destruct Hz as [Hz N]. apply negb_true_iff in N. split; [exact N|]. apply existsb_exists. exists y. split; [exact Hz|apply beqb_refl].
Qed.
Lemma no_dead {rho : Semantics.env} x : mem x [] = true -> rho x = None.
Proof. discriminate. Qed.
Theorem dead_run_ok p : forall rho env dead, (forall x, fine [1] (rho x) (alook env x)) -> (forall x, mem x dead = true -> rho x = None) ->
  forall x, mem x (dead_run env dead p) = true -> exec I rho p x = None.
Proof.
  induction p as [|[x e] p IH]; intros rho env dead He Hd y Hy; cbn [dead_run exec] in *; [exact (Hd y Hy)|].
  refine (IH _ _ _ _ _ y Hy).
  - intros z. unfold upd. cbn [alook]. destruct (beqb z x); [exact (val_ok rho env He e)|apply He].
  - intros z Hz. unfold upd. destruct (surely_none _ dead e) eqn:S.
    + pose proof (none_ok rho env dead He Hd e S) as N. destruct (beqb z x) eqn:E; [exact N|]. cbn [mem existsb] in Hz. rewrite E in Hz. exact (Hd z Hz).
    + destruct (mem_without _ _ _ Hz) as [E M]. rewrite E. exact (Hd z M).
Qed.
End Ok.

Definition fails_pol (ps xs : qlist) (c : compiled) : bool :=
  q_zeta ps && q_pol_ok xs && q_above ps xs && q_unclipped ps xs &&
  (forallb (fun e => attr_name (fst e)) ps && forallb (fun e => among pol_names (fst e)) xs && mem "res" (dead_run (point_env (ps ++ xs)) [] (c_pol c))).
Definition q_uabove (ps xs : qlist) : bool :=
  match qlook ps "p.dens_threshold", qlook xs "r0" with Some d, Some r => qlt d (r * (1 # 2)) | _, _ => false end.
Definition fails_unpol (ps xs : qlist) (c : compiled) : bool :=
  q_zeta ps && (q_pos xs "r0" && q_nonneg xs "s0" && q_nonneg xs "tau0") && q_uabove ps xs &&
  (forallb (fun e => attr_name (fst e)) ps && forallb (fun e => among unpol_names (fst e)) xs && mem "res" (dead_run (point_env (ps ++ xs)) [] (c_unpol c))).

Theorem fails_pol_sound ps xs c : fails_pol ps xs c = true -> undefined_pol (c_src c).
Proof.
  unfold fails_pol. intros H. apply andb_prop in H. destruct H as [H Hr]. apply andb_prop in H. destruct H as [H Hu].
  apply andb_prop in H. destruct H as [H Ha]. apply andb_prop in H. destruct H as [Hz Hp].
  apply andb_prop in Hr. destruct Hr as [Hr Hm]. apply andb_prop in Hr. destruct Hr as [Ep Ex].
  exists (qget ps), (q_pol xs). split; [exact (q_zeta_ok _ Hz)|]. split; [exact (q_pol_ok_ok _ Hp)|]. split; [exact (q_above_ok _ _ Ha)|].
  split; [exact (q_unclipped_ok _ _ Hu)|]. intros I HI. rewrite result_pol. unfold result.
  rewrite (dead_run_ok I HI _ _ _ _ (point_env_ok [1] _ _ (pol_point_env _ _ Ep Ex)) no_dead _ Hm). reflexivity.
Qed.
Theorem fails_unpol_sound ps xs c : fails_unpol ps xs c = true -> undefined_unpol (c_src c).
Proof.
  unfold fails_unpol. intros H. apply andb_prop in H. destruct H as [H Hr]. apply andb_prop in H. destruct H as [H Hu].
  apply andb_prop in H. destruct H as [Hz Hp]. apply andb_prop in Hp. destruct Hp as [Hp Ht]. apply andb_prop in Hp. destruct Hp as [H0 Hs].
  apply andb_prop in Hr. destruct Hr as [Hr Hm]. apply andb_prop in Hr. destruct Hr as [Ep Ex].
  unfold q_uabove in Hu. destruct (qlook ps "p.dens_threshold") as [d|] eqn:D; [|discriminate]. destruct (qlook xs "r0") as [r|] eqn:R0; [|discriminate].
  apply qlt_ok in Hu. rewrite Q2R_mult, RPow.Q2R_half in Hu.
  exists (qget ps), (q_unpol xs), (Q2R d). split; [exact (q_zeta_ok _ Hz)|]. split; [exact (q_pos_ok _ _ H0)|]. split; [exact (q_nonneg_ok _ _ Hs)|].
  split; [exact (q_nonneg_ok _ _ Ht)|]. split; [exact (qget_ok _ _ _ D)|]. split; [cbn [q_unpol u_r]; rewrite (qval_ok _ _ _ R0); lra|].
  intros I HI. rewrite result_unpol. unfold result.
  rewrite (dead_run_ok I HI _ _ _ _ (point_env_ok [1] _ _ (unpol_point_env _ _ Ep Ex)) no_dead _ Hm). reflexivity.
Qed.
End Precision.
