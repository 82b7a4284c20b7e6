(** Correlation energies: the sign of what the callable returns. The checks are run in RunCorr.v. *)
From Coq Require Import Reals ZArith QArith Qreals List Bool Arith Lra Lia.
From Verif Require Import Bytes Syntax Parser PostProcess Src Ast Semantics Free Vec Impl ImplThm ImplThm4 Records RPow
  Families Interval IntervalThm Absint AbsintThm AbsintThm3 Defined Exact Inputs Library Refute.
Import ListNotations.
Open Scope R_scope.

(** ** Statements *)

(** The unpolarised mode alone. *)
Definition returns_nonpositive_unpol (d : domain) (f : source) : Prop :=
  forall I impl p dim rho mo, ops_ok I -> record_for impl f d 1 p -> point_unpol d p dim rho mo ->
  exists v, epsilon_xc I impl p dim rho mo = Ok (Some v) /\ v <= 0.
(** Some call returns a positive energy: the parameters have the values [ps], the densities are
    positive and no kinetic energy density is below that of a single orbital, |grad n|^2 / 8n. *)
Definition has_values (ps : qlist) (p : func_p) : Prop :=
  forall x q, qlook ps x = Some q -> attrs_of p x = Some (Q2R q).
Definition above_weizsaecker (dim : nat) (rho : field R) (mo : option (field complex)) : Prop :=
  forall s, (s < 2)%nat -> dot dim (f_jac rho [s]) (f_jac rho [s]) / (8 * f_val rho [s]) <= tau_pol dim mo s.
Definition returns_positive (ps : qlist) (f : source) : Prop :=
  exists impl p rho mo, single impl p f /\ name_to_type (src_name f) = Ok (fp_type p) /\ fp_nspin p = 2%nat /\
  has_values ps p /\ 0 < zeta_threshold (fp_scal p) < 1 /\ well_formed p rho mo /\
  0 < f_val rho [0%nat] /\ 0 < f_val rho [1%nat] /\ (fp_type p = "mgga"%b -> above_weizsaecker 3 rho mo) /\
  forall I, ops_ok I -> exists v, epsilon_xc I impl p 3 rho mo = Ok (Some v) /\ 0 < v.

(** ** Checks of the sign *)
Theorem nonpositive_unpol_library d f : usable d f -> nonpositive_unpol d f -> returns_nonpositive_unpol d f.
Proof.
  intros U Du I impl p dim rho mo HI R P. rewrite (eval_unpol d f U I impl p dim rho mo R (proj1 P)).
  destruct (Du I _ _ HI (proj2 (proj2 (proj2 R))) (point_unpol_physical d p dim rho mo (level_of d f U _ _ _ R) P)) as (v & Hv & Hn).
  destruct (Rlt_dec _ _); [exists 0; split; [reflexivity|lra]|exists v; rewrite Hv; split; [reflexivity|exact Hn]].
Qed.
Definition check_corr (p : compiled * domain) : bool :=
  nonpos_itv (bounds_pol (snd p) (fst p)) && nonpos_itv (bounds_unpol (snd p) (fst p)) && library_ok (snd p) (fst p).
Theorem corr_sound p : check_corr p = true -> returns_nonpositive (snd p) (c_src (fst p)).
Proof.
  intros H. apply andb_prop in H. destruct H as [H L]. apply andb_prop in H. destruct H as [P U].
  exact (nonpositive_library _ _ (library_sound _ _ L) (nonpositive_pol_sound _ _ P) (nonpositive_unpol_sound _ _ U)).
Qed.
Definition check_corr_unpol (p : compiled * domain) : bool :=
  nonpos_itv (bounds_unpol (snd p) (fst p)) && library_ok (snd p) (fst p).
Theorem corr_unpol_sound p : check_corr_unpol p = true -> returns_nonpositive_unpol (snd p) (c_src (fst p)).
Proof.
  intros H. apply andb_prop in H. destruct H as [U L].
  exact (nonpositive_unpol_library _ _ (library_sound _ _ L) (nonpositive_unpol_sound _ _ U)).
Qed.

(** ** A record and fields with rational values *)

(** Densities, gradients (a, 0, 0) and (b, c, 0), Laplacians, and one orbital per channel with
    the gradient (t, 0, 0). *)
Record place := { q_r0 : Q; q_r1 : Q; q_a : Q; q_b : Q; q_c : Q; q_l0 : Q; q_l1 : Q; q_t0 : Q; q_t1 : Q }.
Definition at_spin {A} (x y : A) (ix : list nat) : A := match ix with 0%nat :: _ => x | _ => y end.
Definition vec3 (x y : R) : vec := fun i => match i with 0%nat => x | 1%nat => y | _ => 0 end.
Definition place_rho (w : place) : field R :=
  Field [2%nat] (at_spin (Q2R (q_r0 w)) (Q2R (q_r1 w)))
    (at_spin (vec3 (Q2R (q_a w)) 0) (vec3 (Q2R (q_b w)) (Q2R (q_c w))))
    (at_spin (fun i j => match i with 0%nat => Q2R (q_l0 w) | _ => 0 end) (fun i j => match i with 0%nat => Q2R (q_l1 w) | _ => 0 end)).
Definition place_mo (w : place) : field complex :=
  Field [2%nat; 1%nat] (fun _ => (0, 0))
    (at_spin (fun i => (vec3 (Q2R (q_t0 w)) 0 i, 0)) (fun i => (vec3 (Q2R (q_t1 w)) 0 i, 0))) (fun _ _ _ => (0, 0)).
(** The arguments of the formula there. *)
Definition place_args (t : bstr) (w : place) : qlist :=
  ([("r0", q_r0 w); ("r1", q_r1 w)] ++
   (if has_s t then [("s0", q_a w * q_a w); ("s1", q_a w * q_b w); ("s2", q_b w * q_b w + q_c w * q_c w)] else []) ++
   (if has_tau t then [("l0", q_l0 w); ("l1", q_l1 w); ("tau0", q_t0 w * q_t0 w * (1 # 2)); ("tau1", q_t1 w * q_t1 w * (1 # 2))] else []))%b%Q.
Definition params_dot : bstr := "params."%b.
Definition value_record (f : source) (t : bstr) (ps : qlist) : func_p :=
  FuncP (src_name f) t 2 (src_name f) {|
    cam_omega := qval ps "p.cam_omega"; cam_alpha := qval ps "p.cam_alpha"; cam_beta := qval ps "p.cam_beta";
    nlc_b := qval ps "p.nlc_b"; nlc_C := qval ps "p.nlc_C"; dens_threshold := qval ps "p.dens_threshold";
    zeta_threshold := qval ps "p.zeta_threshold"; sigma_threshold := qval ps "p.sigma_threshold";
    tau_threshold := qval ps "p.tau_threshold" |} (fun y => qget ps (params_dot +++ y)) None None.
Definition scalar_names : list bstr :=
  ["p.cam_omega"; "p.cam_alpha"; "p.cam_beta"; "p.nlc_b"; "p.nlc_C"; "p.dens_threshold"; "p.zeta_threshold";
   "p.sigma_threshold"; "p.tau_threshold"]%b.
Definition own_module (f : source) : modules := fun n => if beqb n (src_name f) then Some f else None.

Lemma record_values f t ps : forallb (fun e => bprefix params_dot (fst e) || among scalar_names (fst e)) ps = true ->
  forall x q, qlook ps x = Some q -> attrs_of (value_record f t ps) x = Some (Q2R q).
Proof.
  intros H x q Hx. destruct (qlook_in _ _ _ Hx) as (e & He & Ee). rewrite forallb_forall in H. specialize (H e He). rewrite Ee in H.
  unfold attrs_of, bprefix in *. fold params_dot. destruct (bstrip params_dot x) as [y|] eqn:E.
  - cbn [fp_params value_record]. apply bstrip_app in E. rewrite <- E. exact (qget_ok _ _ _ Hx).
  - cbn [orb] in H. unfold among in H. apply existsb_exists in H. destruct H as (z & Hz & Ez). apply beqb_eq in Ez. subst z.
    unfold scalar_names in Hz. cbn [In] in Hz.
    repeat destruct Hz as [Hz|Hz]; try contradiction; subst x; cbn -[qval]; rewrite (qval_ok _ _ _ Hx); reflexivity.
Qed.

Section At.
Context {prc : setting} {pik : pi_known}.

(** [at_pol_ok] for any attributes with the given values. *)
Lemma at_pol_values ps xs c i I A : at_pol ps xs c = Some i -> ops_ok I -> (forall x q, qlook ps x = Some q -> A x = Some (Q2R q)) ->
  exists v, pol (c_src c) I A (q_pol xs) = Some v /\ inside i v.
Proof.
  intros H HI HA. unfold at_pol in H. destruct (_ && _ && _) eqn:E in H; [|discriminate].
  apply andb_prop in E. destruct E as [E Es]. apply andb_prop in E. destruct E as [Ep Ex]. rewrite result_pol.
  refine (shown_ok I HI [1] headed1 [SPos] sorts1 _ _ _ _ _ Es H). apply point_env_ok.
  intros x q Hq. pose proof (pol_point_env ps xs Ep Ex x q Hq) as G. rewrite qlook_app in Hq. destruct (qlook ps x) as [q'|] eqn:Eq.
  - injection Hq as ->. rewrite pol_attr by exact (name_at _ _ _ Ep Eq). rewrite (HA _ _ Eq). reflexivity.
  - pose proof (arg_at _ _ _ _ Ex Hq) as N. unfold pol_names in N. cbn [In] in N.
    repeat destruct N as [N|N]; try contradiction; subst x; exact G.
Qed.

Definition any_domain (l : level) (ps : qlist) : domain := {| d_level := l; d_pars := map (fun e => (fst e, SAny)) ps |}.
Definition level_of_type (t : bstr) : level := if has_tau t then Mgga false else if has_s t then Gga false else Lda.
Definition weizsaecker_ok (w : place) : bool :=
  Qle_bool (q_a w * q_a w) (4 * q_r0 w * (q_t0 w * q_t0 w)) && Qle_bool (q_b w * q_b w + q_c w * q_c w) (4 * q_r1 w * (q_t1 w * q_t1 w)).
Definition check_positive (c : compiled) (ps : qlist) (w : place) : bool :=
  match name_to_type (src_name (c_src c)) with
  | Ok t =>
      forallb (fun e => bprefix params_dot (fst e) || among scalar_names (fst e)) ps && q_zeta ps &&
      library_ok (any_domain (level_of_type t) ps) c && qlt 0 (q_r0 w) && qlt 0 (q_r1 w) &&
      match qlook ps "p.dens_threshold" with Some d => Qle_bool d (q_r0 w + q_r1 w) | None => false end &&
      (negb (has_tau t) || weizsaecker_ok w) &&
      match at_pol ps (place_args t w) c with Some i => lo_pos i | None => false end &&
      negb (beqb (src_name (c_src c)) "") && negb (beqb (src_name (c_src c)) DEORBITALIZE)
  | Err _ => false
  end.

Lemma dot3 u v : dot 3 u v = u 0%nat * v 0%nat + u 1%nat * v 1%nat + u 2%nat * v 2%nat.
Proof. unfold dot. cbn [rsum]. lra. Qed.
Lemma tau_place w s : (s < 2)%nat -> tau_pol 3 (Some (place_mo w)) s = at_spin (Q2R (q_t0 w)) (Q2R (q_t1 w)) [s] * at_spin (Q2R (q_t0 w)) (Q2R (q_t1 w)) [s] / 2.
Proof.
  intros H. unfold tau_pol, orbital_tau. cbn [f_shape place_mo nth rsum f_jac]. unfold conj_re.
  destruct s as [|[|s]]; [| |lia]; cbn [at_spin fst snd vec3]; lra.
Qed.
Lemma place_arguments t w : family t -> pol_at t 3 (place_rho w) (Some (place_mo w)) = q_pol (place_args t w).
Proof.
  intros F. unfold pol_at. rewrite !tau_place, !dot3 by lia. unfold lap. cbn [rsum f_val f_jac f_hess place_rho at_spin vec3].
  destruct F as [-> | [-> | ->]]; unfold q_pol, qval, qget, place_args; cbn [has_s has_tau negb beqb when];
    cbn -[Q2R Rmult Rplus Rdiv Qmult Qplus];
    rewrite ?Q2R_plus, ?Q2R_mult, ?Q2R_half; f_equal; try reflexivity; f_equal; lra.
Qed.
Theorem positive_sound c ps w : check_positive c ps w = true -> returns_positive ps (c_src c).
Proof.
  unfold check_positive. destruct (name_to_type (src_name (c_src c))) as [t|] eqn:T; [|discriminate]. intros H.
  apply andb_prop in H. destruct H as [H N2]. apply andb_prop in H. destruct H as [H N1].
  apply andb_prop in H. destruct H as [H V]. apply andb_prop in H. destruct H as [H W]. apply andb_prop in H. destruct H as [H D].
  apply andb_prop in H. destruct H as [H R1]. apply andb_prop in H. destruct H as [H R0]. apply andb_prop in H. destruct H as [H L].
  apply andb_prop in H. destruct H as [P Z]. apply negb_true_iff in N1, N2. apply qlt_ok in R0, R1. rewrite RPow.Q2R_0 in R0, R1.
  destruct (at_pol ps (place_args t w) c) as [i|] eqn:E; [|discriminate].
  destruct (qlook ps "p.dens_threshold") as [d|] eqn:Ed; [|discriminate]. apply qle_ok in D. rewrite Q2R_plus in D.
  set (f := c_src c) in *. set (p := value_record f t ps).
  pose proof (record_values f t ps P) as HV. fold p in HV.
  assert (Sg : single (own_module f) p f).
  { split; [|split].
    - intros X. change (src_name f = ""%b) in X. rewrite X in N1. discriminate.
    - intros X. change (src_name f = DEORBITALIZE) in X. rewrite X in N2. discriminate.
    - unfold own_module. change (fp_maple p) with (src_name f). rewrite (proj2 (beqb_eq _ _) eq_refl). reflexivity. }
  assert (Zo : zeta_ok (attrs_of p)).
  { destruct (q_zeta_ok _ Z) as (z & Hz & B). unfold qget in Hz. destruct (qlook ps "p.zeta_threshold") as [q|] eqn:Eq; [|discriminate].
    exists z. split; [rewrite (HV _ _ Eq); exact Hz|exact B]. }
  assert (Wf : well_formed p (place_rho w) (Some (place_mo w))).
  { split; [discriminate|]. split; [reflexivity|]. intros _. exists (place_mo w). split; [reflexivity|]. split; [discriminate|].
    intros _. exists 1%nat. reflexivity. }
  assert (Rf : record_for (own_module f) f (any_domain (level_of_type t) ps) 2 p).
  { split; [exact Sg|]. split; [exact T|]. split; [reflexivity|]. split; [exact Zo|]. split; [exists (Q2R d); exact (HV _ _ Ed)|].
    intros x s Hx. cbn [d_pars any_domain] in Hx. apply in_map_iff in Hx. destruct Hx as (e & Ee & He). injection Ee as <- <-.
    assert (X : exists q, qlook ps (fst e) = Some q).
    { clear - He. induction ps as [|[y q] l IH]; [destruct He|]. cbn [qlook]. destruct (beqb (fst e) y) eqn:B; [eexists; reflexivity|].
      destruct He as [<-|He]; [cbn [fst] in B; rewrite (proj2 (beqb_eq _ _) eq_refl) in B; discriminate|exact (IH He)]. }
    destruct X as (q & Hq). exists (Q2R q). split; [exact (HV _ _ Hq)|exact Logic.I]. }
  exists (own_module f), p, (place_rho w), (Some (place_mo w)).
  split; [exact Sg|]. split; [exact T|]. split; [reflexivity|]. split; [exact HV|].
  split.
  { destruct Zo as (z & Hz & B). change (attrs_of p "p.zeta_threshold"%b) with (Some (zeta_threshold (fp_scal p))) in Hz.
    injection Hz as <-. exact B. }
  split; [exact Wf|]. split; [exact R0|]. split; [exact R1|]. split.
  { intros M. change (t = "mgga"%b) in M. subst t. cbn [has_tau beqb negb orb] in W. unfold weizsaecker_ok in W.
    apply andb_prop in W. destruct W as [W0 W1]. apply qle_ok in W0, W1.
    repeat (rewrite Q2R_plus in W0 || rewrite Q2R_mult in W0). repeat (rewrite Q2R_plus in W1 || rewrite Q2R_mult in W1). replace (Q2R 4) with 4 in W0, W1 by (unfold Q2R; cbn; lra).
    intros s Hs. rewrite tau_place, dot3 by exact Hs.
    destruct s as [|[|s]]; [| |lia]; cbn [f_jac f_val place_rho at_spin vec3].
    - apply (Rmult_le_reg_r (8 * Q2R (q_r0 w))); [lra|]. unfold Rdiv at 1. rewrite Rmult_assoc, Rinv_l by lra. lra.
    - apply (Rmult_le_reg_r (8 * Q2R (q_r1 w))); [lra|]. unfold Rdiv at 1. rewrite Rmult_assoc, Rinv_l by lra. lra. }
  intros I HI. rewrite (eval_pol _ _ (library_sound _ _ L) I _ p 3 _ _ Rf Wf).
  change (dens_threshold (fp_scal p)) with (qval ps "p.dens_threshold"). rewrite (qval_ok _ _ _ Ed).
  change (f_val (place_rho w) [0%nat]) with (Q2R (q_r0 w)). change (f_val (place_rho w) [1%nat]) with (Q2R (q_r1 w)).
  destruct (Rlt_dec _ _) as [X|X]; [lra|]. change (fp_type p) with t. rewrite (place_arguments t w (name_family _ _ T)).
  destruct (at_pol_values ps _ c i I (attrs_of p) E HI HV) as (v & Hv & Iv). exists v. split; [exact (f_equal Ok Hv)|].
  exact (lo_pos_ok _ _ V Iv).
Qed.
End At.
