(** Definedness of the generated formulas on physical inputs: statement, checker, soundness. *)
From Coq Require Import Reals ZArith NArith QArith Qreals Bool List Lra Lia.
From Verif Require Import Bytes Syntax Parser PostProcess Src Ast Semantics Free RPow Families
  Interval IntervalThm IntervalThm2 Absint AbsintThm AbsintThm2 AbsintThm3.
Import ListNotations.
Open Scope R_scope.

(** The precision used for these statements. *)
#[global] Instance usual : setting := Setting 32 12 (Itv (Bd (D 201 (-6)) true) (Bd (D 202 (-6)) true)) false.
#[global] Instance usual_pi : pi_known := pi_coarse_ok.

(** ** Statement *)

(** Which inputs a functional is given: densities; gradients too; Laplacian and kinetic energy
    density too.  [pos]: the gradients do not vanish. *)
Inductive level := Lda | Gga (pos : bool) | Mgga (pos : bool).

Definition grad_ok (pos : bool) (s : R) : Prop := if pos then 0 < s else 0 <= s.
Definition gradient_pol (pos : bool) (a : pol_args) : Prop :=
  exists s0 s1 s2, p_s0 a = Some s0 /\ p_s1 a = Some s1 /\ p_s2 a = Some s2 /\
  grad_ok pos s0 /\ grad_ok pos s2 /\ grad_ok pos (s0 + 2 * s1 + s2).
Definition kinetic_pol (a : pol_args) : Prop :=
  (exists l, p_l0 a = Some l) /\ (exists l, p_l1 a = Some l) /\
  (exists t, p_tau0 a = Some t /\ 0 < t) /\ (exists t, p_tau1 a = Some t /\ 0 < t).
Definition physical_pol (l : level) (a : pol_args) : Prop :=
  0 < p_r0 a /\ 0 < p_r1 a /\
  match l with
  | Lda => onneg (p_s0 a) /\ onneg (p_s2 a)
  | Gga pos => gradient_pol pos a
  | Mgga pos => gradient_pol pos a /\ kinetic_pol a
  end.
Definition gradient_unpol (pos : bool) (u : unpol_args) : Prop := exists s, u_s u = Some s /\ grad_ok pos s.
Definition kinetic_unpol (u : unpol_args) : Prop :=
  (exists l, u_l u = Some l) /\ (exists t, u_tau u = Some t /\ 0 < t).
Definition physical_unpol (l : level) (u : unpol_args) : Prop :=
  0 < u_r u /\
  match l with
  | Lda => onneg (u_s u)
  | Gga pos => gradient_unpol pos u
  | Mgga pos => gradient_unpol pos u /\ kinetic_unpol u
  end.
(** The thresholds and the parameters [pars] are present and have the given signs. *)
Definition params_ok (A : attrs) (pars : list (bstr * sort)) : Prop :=
  zeta_ok A /\ (exists d, A "p.dens_threshold"%b = Some d) /\
  forall x s, In (x, s) pars -> exists v, A x = Some v /\ sat_sort s v.

Record domain := { d_level : level; d_pars : list (bstr * sort) }.
Definition defined_pol (d : domain) (f : source) : Prop :=
  forall I A a, ops_ok I -> params_ok A (d_pars d) -> physical_pol (d_level d) a -> exists v, pol f I A a = Some v.
Definition defined_unpol (d : domain) (f : source) : Prop :=
  forall I A u, ops_ok I -> params_ok A (d_pars d) -> physical_unpol (d_level d) u -> exists v, unpol f I A u = Some v.
Definition nonpositive_pol (d : domain) (f : source) : Prop :=
  forall I A a, ops_ok I -> params_ok A (d_pars d) -> physical_pol (d_level d) a -> exists v, pol f I A a = Some v /\ v <= 0.
Definition nonpositive_unpol (d : domain) (f : source) : Prop :=
  forall I A u, ops_ok I -> params_ok A (d_pars d) -> physical_unpol (d_level d) u -> exists v, unpol f I A u = Some v /\ v <= 0.

(** ** Checker *)
Definition coord (k : nat) : option lfrac := Some (repeat 0%Q k ++ [1%Q], [1%Q]).
Definition sort_itv (s : sort) : itv := match s with SPos => positive_itv | SNonneg => nonneg_itv | SAny => top
  | SIn l h => Itv (Bd (q_dn l) true) (Bd (q_up h) false) end.
Definition given (x : bstr) (s : sort) (k : nat) : bstr * ainfo := (x, (AR (sort_itv s) true, coord k)).
Definition param (ps : bstr * sort) : bstr * ainfo := (fst ps, (AR (sort_itv (snd ps)) true, None)).
Definition free_input (x : bstr) : bstr * ainfo := (x, (AR top true, None)).
Definition thresholds : aenv :=
  [("p.zeta_threshold"%b, (AR (Itv (Bd zero true) (Bd one true)) true, None)); free_input "p.dens_threshold"].
Definition gsort (pos : bool) : sort := if pos then SPos else SNonneg.
Definition is_pos (l : level) : bool := match l with Lda => false | Gga p | Mgga p => p end.
Definition pol_sg (l : level) : list sort := let g := gsort (is_pos l) in [SPos; SPos; SPos; g; g; g; SPos; SPos].
Definition pol_grads (pos : bool) : aenv :=
  [given "s0" (gsort pos) 3; given "s2" (gsort pos) 4;
   ("s1"%b, (AR top true, Some ([0; 0; 0; -1#2; -1#2; 1#2]%Q, [1%Q])))].
Definition pol_kin : aenv := [given "tau0" SPos 6; given "tau1" SPos 7; free_input "l0"; free_input "l1"].
Definition pol_aenv (d : domain) : aenv :=
  given "r0" SPos 1 :: given "r1" SPos 2 ::
  match d_level d with Lda => [] | Gga pos => pol_grads pos | Mgga pos => pol_grads pos ++ pol_kin end ++
  map param (d_pars d) ++ thresholds.
Definition unpol_sg (l : level) : list sort := [SPos; SPos; gsort (is_pos l); SPos].
Definition unpol_grads (pos : bool) : aenv := [given "s0" (gsort pos) 2].
Definition unpol_kin : aenv := [given "tau0" SPos 3; free_input "l0"].
Definition unpol_aenv (d : domain) : aenv :=
  given "r0" SPos 1 ::
  match d_level d with Lda => [] | Gga pos => unpol_grads pos | Mgga pos => unpol_grads pos ++ unpol_kin end ++
  map param (d_pars d) ++ thresholds.
(** Parameters are attribute paths, not inputs. *)
Definition pars_named (d : domain) : bool := forallb (fun p => attr_name (fst p)) (d_pars d).
Definition bounds_pol (d : domain) (c : compiled) : option itv :=
  if pars_named d && ssa 0 (c_pol c) then shown (pol_sg (d_level d)) (pol_aenv d) (c_pol c) else None.
Definition bounds_unpol (d : domain) (c : compiled) : option itv :=
  if pars_named d && ssa 0 (c_unpol c) then shown (unpol_sg (d_level d)) (unpol_aenv d) (c_unpol c) else None.
Definition is_some (o : option itv) : bool := match o with Some _ => true | None => false end.
Definition nonpos_itv (o : option itv) : bool := match o with Some i => lo_nonneg (ineg i) | None => false end.

(** ** Soundness *)
Lemma sort_itv_ok s x : sat_sort s x -> inside (sort_itv s) x.
Proof.
  destruct s; cbn [sat_sort sort_itv]; intros H; [apply positive_itv_ok, H|apply nonneg_itv_ok, H|apply inside_top|].
  pose proof (q_dn_le l). pose proof (q_up_ge h). split; cbn [lo hi in_lo in_hi]; lra.
Qed.
Lemma gsort_ok pos x : grad_ok pos x -> sat_sort (gsort pos) x.
Proof. destruct pos; exact (fun H => H). Qed.

Section Env.
Variable b : list R.
Hypothesis Hb : headed b.

Definition entry_ok (rho : Semantics.env) (e : bstr * ainfo) : Prop := fine b (rho (fst e)) (snd e).
Lemma alook_ok rho env : Forall (entry_ok rho) env -> forall x, fine b (rho x) (alook env x).
Proof.
  induction 1 as [|[y v] env Hy _ IH]; intros x; cbn [alook].
  - split; cbn [fst snd]; [exact Logic.I|]. unfold formed. destruct (rho x) as [[|]|]; exact Logic.I.
  - destruct (beqb x y) eqn:E; [|apply IH]. apply beqb_eq in E. subst y. exact Hy.
Qed.
Lemma coord_ok k x : nth_error b (S k) = Some x -> form_val b (repeat 0%Q (S k) ++ [1%Q], [1%Q]) x.
Proof.
  intros H. split; cbn [fst snd]; rewrite (lone b Hb); [lra|].
  assert (G : forall n b, nth_error b n = Some x -> lval b (repeat 0%Q n ++ [1%Q]) = x).
  { induction n as [|n IH]; intros [|y b'] E; try discriminate; cbn [repeat app lval].
    - injection E as ->. rewrite Q2R_1. destruct b'; cbn [lval]; ring.
    - rewrite (IH b' E), Q2R_0. ring. }
  rewrite (G _ _ H). field.
Qed.
Lemma given_ok rho x s k r : rho x = Some (VR r) -> sat_sort s r -> nth_error b (S k) = Some r -> entry_ok rho (given x s (S k)).
Proof.
  intros H Hs Hk. unfold entry_ok, given, fine. cbn [fst snd]. rewrite H. split; [apply sort_itv_ok, Hs|]. cbn [formed coord]. apply coord_ok, Hk.
Qed.
Lemma free_input_ok rho x r : rho x = Some (VR r) -> entry_ok rho (free_input x).
Proof. intros H. unfold entry_ok, free_input, fine. cbn [fst snd]. rewrite H. split; [apply inside_top|exact Logic.I]. Qed.
Lemma param_ok rho p r : rho (fst p) = Some (VR r) -> sat_sort (snd p) r -> entry_ok rho (param p).
Proof. intros H Hs. unfold entry_ok, param, fine. cbn [fst snd]. rewrite H. split; [apply sort_itv_ok, Hs|exact Logic.I]. Qed.
Lemma thresholds_ok rho z d : rho "p.zeta_threshold"%b = Some (VR z) -> 0 < z < 1 -> rho "p.dens_threshold"%b = Some (VR d) ->
  Forall (entry_ok rho) thresholds.
Proof.
  intros Hz Hz' Hd. constructor; [|constructor; [eapply free_input_ok, Hd|constructor]].
  unfold entry_ok, fine. cbn [fst snd]. rewrite Hz. split; [|exact Logic.I]. split; cbn [lo hi in_lo in_hi]; rewrite ?D2R_zero, ?D2R_one; lra.
Qed.
End Env.

Lemma attr_not_arg x y : attr_name x = true -> attr_name y = false -> beqb x y = false.
Proof. intros H1 H2. destruct (beqb x y) eqn:E; [|reflexivity]. apply beqb_eq in E. subst. congruence. Qed.
Lemma bind_attr l A x : attr_name x = true -> forallb (fun p : bstr * option R => negb (attr_name (fst p))) l = true ->
  bind_args l (attr_env A) x = opt_val (A x).
Proof.
  intros Hx. induction l as [|[y o] l IH]; cbn [bind_args forallb fst]; intros H.
  - unfold attr_env. rewrite Hx. reflexivity.
  - apply andb_prop in H. destruct H as [H1 H2]. apply negb_true_iff in H1. unfold upd. rewrite (attr_not_arg _ _ Hx H1). apply IH, H2.
Qed.
Lemma pol_attr A a x : attr_name x = true -> pol_env A a x = opt_val (A x).
Proof. intros H. apply bind_attr; [exact H|reflexivity]. Qed.
Lemma unpol_attr A a x : attr_name x = true -> unpol_env A a x = opt_val (A x).
Proof. intros H. apply bind_attr; [exact H|reflexivity]. Qed.

Lemma pars_entries b rho A d : (forall x, attr_name x = true -> rho x = opt_val (A x)) -> pars_named d = true -> params_ok A (d_pars d) ->
  Forall (entry_ok b rho) (map param (d_pars d) ++ thresholds).
Proof.
  intros Hr Hn ((z & Hz & Hz') & (dd & Hd) & Hp). apply Forall_app. split; cycle 1.
  - apply (thresholds_ok b rho z dd); [rewrite Hr by reflexivity; rewrite Hz; reflexivity|exact Hz'|rewrite Hr by reflexivity; rewrite Hd; reflexivity].
  - apply Forall_forall. intros e He. apply in_map_iff in He. destruct He as ([x s] & <- & Hin).
    destruct (Hp _ _ Hin) as (v & Hv & Hs). apply (param_ok b rho (x, s) v); [|exact Hs]. cbn [fst].
    unfold pars_named in Hn. rewrite forallb_forall in Hn. specialize (Hn _ Hin). cbn [fst] in Hn. rewrite (Hr _ Hn), Hv. reflexivity.
Qed.

Definition oget (o : option R) : R := match o with Some x => x | None => 1 end.
(** The values of the basis the forms are built from. *)
Definition pol_basis (l : level) (a : pol_args) : list R :=
  let s0 := oget (p_s0 a) in let s1 := oget (p_s1 a) in let s2 := oget (p_s2 a) in
  match l with
  | Lda => [1; p_r0 a; p_r1 a; 1; 1; 1; 1; 1]
  | Gga _ => [1; p_r0 a; p_r1 a; s0; s2; s0 + 2 * s1 + s2; 1; 1]
  | Mgga _ => [1; p_r0 a; p_r1 a; s0; s2; s0 + 2 * s1 + s2; oget (p_tau0 a); oget (p_tau1 a)]
  end.
Lemma pol_basis_sorts l a : physical_pol l a -> Forall2 sat_sort (pol_sg l) (pol_basis l a).
Proof.
  intros (H0 & H1 & H). unfold pol_sg, pol_basis.
  assert (L : 0 < 1) by lra.
  destruct l as [|pos|pos]; cbn [is_pos].
  - repeat constructor; cbn [sat_sort gsort]; lra.
  - destruct H as (s0 & s1 & s2 & -> & -> & -> & G0 & G2 & G). cbn [oget].
    repeat (constructor; [first [exact L|assumption|apply gsort_ok; assumption]|]). constructor.
  - destruct H as ((s0 & s1 & s2 & -> & -> & -> & G0 & G2 & G) & _ & _ & (t0 & -> & T0) & (t1 & -> & T1)). cbn [oget].
    repeat (constructor; [first [exact L|assumption|apply gsort_ok; assumption]|]). constructor.
Qed.
Lemma pol_grads_ok A pos a l : gradient_pol pos a -> l = Gga pos \/ l = Mgga pos -> Forall (entry_ok (pol_basis l a) (pol_env A a)) (pol_grads pos).
Proof.
  intros (s0 & s1 & s2 & E0 & E1 & E2 & G0 & G2 & G) Hl.
  assert (V0 : pol_env A a "s0"%b = Some (VR s0)) by (change (opt_val (p_s0 a) = Some (VR s0)); rewrite E0; reflexivity).
  assert (V1 : pol_env A a "s1"%b = Some (VR s1)) by (change (opt_val (p_s1 a) = Some (VR s1)); rewrite E1; reflexivity).
  assert (V2 : pol_env A a "s2"%b = Some (VR s2)) by (change (opt_val (p_s2 a) = Some (VR s2)); rewrite E2; reflexivity).
  assert (Hb : headed (pol_basis l a)) by (destruct l; eexists; reflexivity).
  constructor; [|constructor; [|constructor; [|constructor]]].
  - apply (given_ok _ Hb _ _ _ 2 s0 V0 (gsort_ok _ _ G0)). destruct Hl as [-> | ->]; cbn; rewrite E0; reflexivity.
  - apply (given_ok _ Hb _ _ _ 3 s2 V2 (gsort_ok _ _ G2)). destruct Hl as [-> | ->]; cbn; rewrite E2; reflexivity.
  - unfold entry_ok, fine. cbn [fst snd]. rewrite V1. cbn [good formed]. split; [apply inside_top|].
    split; cbn [fst snd]; rewrite (lone _ Hb); [lra|].
    assert (Q2R (-1#2) = - / 2) by (unfold Q2R; cbn; lra). assert (Q2R (1#2) = / 2) by (unfold Q2R; cbn; lra).
    destruct Hl as [-> | ->]; cbn [pol_basis lval]; rewrite E0, E1, E2, Q2R_0, H, H0; cbn [oget]; field.
Qed.
Lemma pol_kin_ok A pos a : kinetic_pol a -> Forall (entry_ok (pol_basis (Mgga pos) a) (pol_env A a)) pol_kin.
Proof.
  intros ((l0 & L0) & (l1 & L1) & (t0 & T0 & P0) & (t1 & T1 & P1)).
  assert (Hb : headed (pol_basis (Mgga pos) a)) by (eexists; reflexivity).
  constructor; [|constructor; [|constructor; [|constructor; [|constructor]]]].
  - apply (given_ok _ Hb _ "tau0" SPos 5 t0); [change (opt_val (p_tau0 a) = Some (VR t0)); rewrite T0; reflexivity|exact P0|cbn; rewrite T0; reflexivity].
  - apply (given_ok _ Hb _ "tau1" SPos 6 t1); [change (opt_val (p_tau1 a) = Some (VR t1)); rewrite T1; reflexivity|exact P1|cbn; rewrite T1; reflexivity].
  - apply (free_input_ok _ _ "l0" l0); change (opt_val (p_l0 a) = Some (VR l0)); rewrite L0; reflexivity.
  - apply (free_input_ok _ _ "l1" l1); change (opt_val (p_l1 a) = Some (VR l1)); rewrite L1; reflexivity.
Qed.
Theorem bounds_pol_ok d c i I A a : bounds_pol d c = Some i -> ops_ok I -> params_ok A (d_pars d) -> physical_pol (d_level d) a ->
  exists v, pol (c_src c) I A a = Some v /\ inside i v.
Proof.
  intros H HI HA Ha. unfold bounds_pol in H. destruct (pars_named d && ssa 0 (c_pol c)) eqn:E; [|discriminate].
  apply andb_prop in E. destruct E as [En Es]. rewrite result_pol.
  assert (Hb : headed (pol_basis (d_level d) a)) by (destruct (d_level d); eexists; reflexivity).
  refine (shown_ok I HI (pol_basis (d_level d) a) Hb (pol_sg (d_level d)) (pol_basis_sorts _ _ Ha) _ _ _ _ _ Es H).
  apply alook_ok. unfold pol_aenv. destruct Ha as (H0 & H1 & Hl).
  constructor; [apply (given_ok _ Hb _ "r0" SPos 0 (p_r0 a)); [reflexivity|exact H0|destruct (d_level d); reflexivity]|].
  constructor; [apply (given_ok _ Hb _ "r1" SPos 1 (p_r1 a)); [reflexivity|exact H1|destruct (d_level d); reflexivity]|].
  apply Forall_app. split; [|apply (pars_entries _ _ A); [intros x Hx; apply pol_attr, Hx|exact En|exact HA]].
  destruct (d_level d) as [|pos|pos] eqn:L; [constructor|apply pol_grads_ok; auto|].
  apply Forall_app. split; [apply pol_grads_ok; [apply Hl|auto]|apply pol_kin_ok, Hl].
Qed.

Definition unpol_basis (l : level) (u : unpol_args) : list R :=
  match l with
  | Lda => [1; u_r u; 1; 1]
  | Gga _ => [1; u_r u; oget (u_s u); 1]
  | Mgga _ => [1; u_r u; oget (u_s u); oget (u_tau u)]
  end.
Lemma unpol_basis_sorts l u : physical_unpol l u -> Forall2 sat_sort (unpol_sg l) (unpol_basis l u).
Proof.
  intros (H0 & H). unfold unpol_sg, unpol_basis. assert (L : 0 < 1) by lra.
  destruct l as [|pos|pos]; cbn [is_pos].
  - repeat constructor; cbn [sat_sort gsort]; lra.
  - destruct H as (s & -> & G). cbn [oget].
    repeat (constructor; [first [exact L|assumption|apply gsort_ok; assumption]|]). constructor.
  - destruct H as ((s & -> & G) & _ & (t & -> & T)). cbn [oget].
    repeat (constructor; [first [exact L|assumption|apply gsort_ok; assumption]|]). constructor.
Qed.
Theorem bounds_unpol_ok d c i I A u : bounds_unpol d c = Some i -> ops_ok I -> params_ok A (d_pars d) -> physical_unpol (d_level d) u ->
  exists v, unpol (c_src c) I A u = Some v /\ inside i v.
Proof.
  intros H HI HA Ha. unfold bounds_unpol in H. destruct (pars_named d && ssa 0 (c_unpol c)) eqn:E; [|discriminate].
  apply andb_prop in E. destruct E as [En Es]. rewrite result_unpol.
  assert (Hb : headed (unpol_basis (d_level d) u)) by (destruct (d_level d); eexists; reflexivity).
  refine (shown_ok I HI (unpol_basis (d_level d) u) Hb (unpol_sg (d_level d)) (unpol_basis_sorts _ _ Ha) _ _ _ _ _ Es H).
  apply alook_ok. unfold unpol_aenv. destruct Ha as (H0 & Hl).
  constructor; [apply (given_ok _ Hb _ "r0" SPos 0 (u_r u)); [reflexivity|exact H0|destruct (d_level d); reflexivity]|].
  apply Forall_app. split; [|apply (pars_entries _ _ A); [intros x Hx; apply unpol_attr, Hx|exact En|exact HA]].
  assert (G : forall pos l, gradient_unpol pos u -> l = Gga pos \/ l = Mgga pos -> Forall (entry_ok (unpol_basis l u) (unpol_env A u)) (unpol_grads pos)).
  { intros pos l (s & Es' & Gs) Hl'. assert (Hb' : headed (unpol_basis l u)) by (destruct l; eexists; reflexivity).
    constructor; [|constructor]. apply (given_ok _ Hb' _ "s0" (gsort pos) 1 s); [change (opt_val (u_s u) = Some (VR s)); rewrite Es'; reflexivity|apply gsort_ok, Gs|].
    destruct Hl' as [-> | ->]; cbn; rewrite Es'; reflexivity. }
  destruct (d_level d) as [|pos|pos] eqn:L; [constructor|apply G; auto|].
  destruct Hl as (Hg & (l0 & L0) & (t & T & P)). apply Forall_app. split; [apply G; auto|].
  constructor; [|constructor; [|constructor]].
  - apply (given_ok _ Hb _ "tau0" SPos 2 t); [change (opt_val (u_tau u) = Some (VR t)); rewrite T; reflexivity|exact P|cbn; rewrite T; reflexivity].
  - apply (free_input_ok _ _ "l0" l0); change (opt_val (u_l u) = Some (VR l0)); rewrite L0; reflexivity.
Qed.

Theorem defined_pol_sound d c : is_some (bounds_pol d c) = true -> defined_pol d (c_src c).
Proof.
  intros H I A a HI HA Ha. destruct (bounds_pol d c) as [i|] eqn:E; [|discriminate].
  destruct (bounds_pol_ok _ _ _ I A a E HI HA Ha) as (v & Hv & _). eauto.
Qed.
Theorem defined_unpol_sound d c : is_some (bounds_unpol d c) = true -> defined_unpol d (c_src c).
Proof.
  intros H I A a HI HA Ha. destruct (bounds_unpol d c) as [i|] eqn:E; [|discriminate].
  destruct (bounds_unpol_ok _ _ _ I A a E HI HA Ha) as (v & Hv & _). eauto.
Qed.
Lemma nonpos_itv_ok i v : lo_nonneg (ineg i) = true -> inside i v -> v <= 0.
Proof. intros H Hv. pose proof (lo_nonneg_ok _ _ H (ineg_ok _ _ Hv)). lra. Qed.
Theorem nonpositive_pol_sound d c : nonpos_itv (bounds_pol d c) = true -> nonpositive_pol d (c_src c).
Proof.
  intros H I A a HI HA Ha. destruct (bounds_pol d c) as [i|] eqn:E; [|discriminate].
  destruct (bounds_pol_ok _ _ _ I A a E HI HA Ha) as (v & Hv & Hi). exists v. split; [exact Hv|]. exact (nonpos_itv_ok _ _ H Hi).
Qed.
Theorem nonpositive_unpol_sound d c : nonpos_itv (bounds_unpol d c) = true -> nonpositive_unpol d (c_src c).
Proof.
  intros H I A a HI HA Ha. destruct (bounds_unpol d c) as [i|] eqn:E; [|discriminate].
  destruct (bounds_unpol_ok _ _ _ I A a E HI HA Ha) as (v & Hv & Hi). exists v. split; [exact Hv|]. exact (nonpos_itv_ok _ _ H Hi).
Qed.

(** An interpretation of the special functions meeting the assumptions. *)
Definition sample_ops : interp := {|
  op1 := fun n x => if beqb n "erf" then Some (tanh x) else if beqb n "lambertw" then Some x
                    else if beqb n "xc_E1_scaled" then Some (1 / (x + 1)) else Some 1;
  op2 := fun _ _ _ => Some 0; op3 := fun _ _ _ _ => None |}.
Lemma sample_ops_ok : ops_ok sample_ops.
Proof.
  constructor; intros; (eexists; split; [reflexivity|]) || (eexists; reflexivity); try lra.
  - apply tanh_odd_in.
  - split; [lra|]. apply (Rmult_le_reg_r ((x + 1) * (x * (x + 2)))); [apply Rmult_lt_0_compat; nra|].
    replace (1 / (x + 1) * ((x + 1) * (x * (x + 2)))) with (x * (x + 2)) by (field; lra).
    replace ((x + 1) / (x * (x + 2)) * ((x + 1) * (x * (x + 2)))) with ((x + 1) * (x + 1)) by (field; nra). nra.
  - split; [lra|]. pose proof (exp_ineq1_le (Rabs x)). pose proof (Rabs_pos x). lra.
Qed.
