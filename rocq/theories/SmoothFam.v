(** Differentiability for single functionals: the check for kinks at the level of the callable (C39). *)
From Coq Require Import Reals List QArith Qreals Bool Arith NArith Lra Lia.
From Verif Require Import Bytes Syntax Parser PostProcess Src Ast Semantics Free Vec Impl ImplThm ImplThm2 ImplThm4 Records
  Families RPow Interval IntervalThm IntervalThm2 Absint AbsintThm AbsintThm2 AbsintThm3 Defined Exact Inputs Library Smooth SmoothLib SmoothCheck.
Import ListNotations.
Open Scope R_scope.

(** ** Statements *)

(** Neither the density nor half of it is at the threshold. *)
Definition off_unpol (p : func_p) (rho : field R) : Prop :=
  f_val rho [] <> dens_threshold (fp_scal p) /\ f_val rho [] / 2 <> dens_threshold (fp_scal p).
(** Neither the density nor a channel is at the density threshold, and no 1 + zeta, 1 - zeta is
    at the threshold for zeta. *)
Definition off_pol (p : func_p) (rho : field R) : Prop :=
  f_val rho [0%nat] + f_val rho [1%nat] <> dens_threshold (fp_scal p) /\
  forall s, (s < 2)%nat -> f_val rho [s] <> dens_threshold (fp_scal p) /\
  2 * f_val rho [s] / (f_val rho [0%nat] + f_val rho [1%nat]) <> zeta_threshold (fp_scal p).
(** The energy density is differentiable along every differentiable path through a physical point. *)
Definition differentiable_unpol (d : domain) (f : source) : Prop :=
  forall I impl p dim rho mo, ops_ok I -> ops_smooth I -> record_for impl f d 1 p -> path rho -> opath mo ->
  point_unpol d p dim (rho 0) (at_time mo 0) -> off_unpol p (rho 0) ->
  differentiable (fun t => epsilon_xc I impl p dim (rho t) (at_time mo t)).
Definition differentiable_pol (d : domain) (f : source) : Prop :=
  forall I impl p dim rho mo, ops_ok I -> ops_smooth I -> record_for impl f d 2 p -> path rho -> opath mo ->
  point_pol d p dim (rho 0) (at_time mo 0) -> off_pol p (rho 0) ->
  differentiable (fun t => epsilon_xc I impl p dim (rho t) (at_time mo t)).
(** The same above the thresholds only. *)
Definition differentiable_above (d : domain) (f : source) : Prop :=
  forall I impl p dim rho mo, ops_ok I -> ops_smooth I -> record_for impl f d 2 p -> path rho -> opath mo ->
  point_pol d p dim (rho 0) (at_time mo 0) -> unscreened p (rho 0) -> unclipped p (rho 0) ->
  differentiable (fun t => epsilon_xc I impl p dim (rho t) (at_time mo t)).
(** The domain with non-zero gradients. *)
Definition sloped (d : domain) : domain :=
  {| d_level := match d_level d with Gga _ => Gga true | Mgga _ => Mgga true | Lda => Lda end; d_pars := d_pars d |}.

(** ** Formulas *)
Definition calm_unpol (d : domain) (f : source) : Prop :=
  forall I A u, ops_ok I -> params_ok A (d_pars d) -> physical_unpol (d_level d) u ->
  (forall t, A "p.dens_threshold"%b = Some t -> u_r u / 2 <> t) ->
  (exists v, unpol f I A u = Some v) /\ forall prog, generated (src_unpol f) = Some prog -> off_kinks I (unpol_env A u) prog.
Definition calm_pol (d : domain) (f : source) : Prop :=
  forall I A a, ops_ok I -> params_ok A (d_pars d) -> physical_pol (d_level d) a ->
  (forall t, A "p.dens_threshold"%b = Some t -> p_r0 a <> t /\ p_r1 a <> t) ->
  (forall z, A "p.zeta_threshold"%b = Some z -> 2 * p_r0 a / (p_r0 a + p_r1 a) <> z /\ 2 * p_r1 a / (p_r0 a + p_r1 a) <> z) ->
  (exists v, pol f I A a = Some v) /\ forall prog, generated (src_pol f) = Some prog -> off_kinks I (pol_env A a) prog.

Lemma unpol_fine d A u : pars_named d = true -> params_ok A (d_pars d) -> physical_unpol (d_level d) u ->
  forall x, fine (unpol_basis (d_level d) u) (unpol_env A u x) (alook (unpol_aenv d) x).
Proof.
  intros En HA Ha. assert (Hb : headed (unpol_basis (d_level d) u)) by (destruct (d_level d); eexists; reflexivity).
  apply alook_ok. unfold unpol_aenv. destruct Ha as (H0 & Hl).
  constructor; [apply (given_ok _ Hb _ "r0" SPos 0 (u_r u)); [reflexivity|exact H0|destruct (d_level d); reflexivity]|].
  apply Forall_app. split; [|apply (pars_entries _ _ A); [intros x Hx; apply unpol_attr, Hx|exact En|exact HA]].
  assert (G : forall pos l, gradient_unpol pos u -> l = Gga pos \/ l = Mgga pos -> Forall (entry_ok (unpol_basis l u) (unpol_env A u)) (unpol_grads pos)).
  { intros pos l (s & Es' & Gs) Hl'. assert (Hb' : headed (unpol_basis l u)) by (destruct l; eexists; reflexivity).
    constructor; [|constructor]. apply (given_ok _ Hb' _ "s0" (gsort pos) 1 s); [change (opt_val (u_s u) = Some (VR s)); rewrite Es'; reflexivity|apply gsort_ok, Gs|].
    destruct Hl' as [-> | ->]; cbn; rewrite Es'; reflexivity. }
  destruct (d_level d) as [|pos|pos] eqn:L; [constructor|apply G; auto|].
  destruct Hl as (Hg & (l0 & L0) & (t & T & P)). apply Forall_app. split; [apply G; auto|].
  constructor; [|constructor; [|constructor]].
  - apply (given_ok _ Hb _ "tau0" SPos 2 t); [change (opt_val (u_tau u) = Some (VR t)); rewrite T; reflexivity|exact P|cbn; rewrite T; reflexivity].
  - apply (free_input_ok _ _ "l0" l0); change (opt_val (u_l u) = Some (VR l0)); rewrite L0; reflexivity.
Qed.
Lemma pol_fine d A a : pars_named d = true -> params_ok A (d_pars d) -> physical_pol (d_level d) a ->
  forall x, fine (pol_basis (d_level d) a) (pol_env A a x) (alook (pol_aenv d) x).
Proof.
  intros En HA Ha. assert (Hb : headed (pol_basis (d_level d) a)) by (destruct (d_level d); eexists; reflexivity).
  apply alook_ok. unfold pol_aenv. destruct Ha as (H0 & H1 & Hl).
  constructor; [apply (given_ok _ Hb _ "r0" SPos 0 (p_r0 a)); [reflexivity|exact H0|destruct (d_level d); reflexivity]|].
  constructor; [apply (given_ok _ Hb _ "r1" SPos 1 (p_r1 a)); [reflexivity|exact H1|destruct (d_level d); reflexivity]|].
  apply Forall_app. split; [|apply (pars_entries _ _ A); [intros x Hx; apply pol_attr, Hx|exact En|exact HA]].
  destruct (d_level d) as [|pos|pos] eqn:L; [constructor|apply pol_grads_ok; auto|].
  apply Forall_app. split; [apply pol_grads_ok; [apply Hl|auto]|apply pol_kin_ok, Hl].
Qed.
Lemma opt_val_VR o z : opt_val o = Some (VR z) -> o = Some z.
Proof. destruct o; cbn [opt_val]; intros H; [injection H as ->; reflexivity|discriminate]. Qed.

Theorem smooth_unpol_ok d c : smooth_unpol d c = true -> calm_unpol d (c_src c).
Proof.
  intros H I A u HI HA Hu Hh. unfold smooth_unpol in H. apply andb_prop in H. destruct H as [H Hr]. apply andb_prop in H. destruct H as [Hn Hs].
  pose proof (unpol_fine d A u Hn HA Hu) as F.
  assert (Hb : headed (unpol_basis (d_level d) u)) by (destruct (d_level d); eexists; reflexivity).
  destruct (steady_run_ok I HI _ Hb _ (unpol_basis_sorts _ _ Hu) half_density (unpol_env A u)) with
    (p := c_unpol c) (k := 0%N) (rho := unpol_env A u) (env := unpol_aenv d) (defs := @nil (bstr * expr)) (bad := @nil bstr)
    (ok := fun x => unpol_env A u x <> None) as [C (v & E)].
  - intros e z [<-|[]] Hz. cbn [fst snd] in *. rewrite unpol_attr in Hz by reflexivity. apply opt_val_VR in Hz. specialize (Hh z Hz).
    assert (Q : Q2R (1#2) = / 2) by (unfold Q2R; cbn; lra).
    intros X. apply Hh. rewrite <- X. destruct (d_level d); cbn [unpol_basis lval]; rewrite Q2R_0, Q2R_1, Q; field.
  - exact F.
  - intros x e Hd. discriminate.
  - reflexivity.
  - intros x _ Ad. exact (good_def _ _ (proj1 (F x)) Ad).
  - exact Hs.
  - exact Hr.
  - split.
    + exists v. rewrite result_unpol. unfold result. rewrite E. reflexivity.
    + intros prog G. rewrite (c_unpol_ok c) in G. injection G as <-. exact C.
Qed.
Theorem smooth_pol_ok d c : smooth_pol d c = true -> calm_pol d (c_src c).
Proof.
  intros H I A a HI HA Ha Hd Hz. unfold smooth_pol in H. apply andb_prop in H. destruct H as [H Hr]. apply andb_prop in H. destruct H as [Hn Hs].
  pose proof (pol_fine d A a Hn HA Ha) as F.
  assert (Hb : headed (pol_basis (d_level d) a)) by (destruct (d_level d); eexists; reflexivity).
  destruct (steady_run_ok I HI _ Hb _ (pol_basis_sorts _ _ Ha) spins (pol_env A a)) with
    (p := c_pol c) (k := 0%N) (rho := pol_env A a) (env := pol_aenv d) (defs := @nil (bstr * expr)) (bad := @nil bstr)
    (ok := fun x => pol_env A a x <> None) as [C (v & E)].
  - destruct Ha as (P0 & P1 & _). assert (Q : Q2R 2 = 2) by (unfold Q2R; cbn; lra).
    intros e z Hin Hv. cbn [In spins] in Hin.
    destruct Hin as [<-|[<-|[<-|[<-|[]]]]]; cbn [fst snd] in *; rewrite pol_attr in Hv by reflexivity; apply opt_val_VR in Hv;
      [destruct (Hd z Hv) as [X _]|destruct (Hd z Hv) as [_ X]|destruct (Hz z Hv) as [X _]|destruct (Hz z Hv) as [_ X]];
      intros Y; apply X; rewrite <- Y; destruct (d_level d); cbn [pol_basis lval]; rewrite ?Q, ?Q2R_0, ?Q2R_1; field; lra.
  - exact F.
  - intros x e K. discriminate.
  - reflexivity.
  - intros x _ Ad. exact (good_def _ _ (proj1 (F x)) Ad).
  - exact Hs.
  - exact Hr.
  - split.
    + exists v. rewrite result_pol. unfold result. rewrite E. reflexivity.
    + intros prog G. rewrite (c_pol_ok c) in G. injection G as <-. exact C.
Qed.

(** ** The callable *)
Section Transfer.
Variables (d : domain) (f : source).
Hypothesis U : usable d f.
Lemma diff_eq F G : (forall t, F t = G t) -> differentiable G -> differentiable F.
Proof. intros E (g & Hg & N). exists g. split; [exact Hg|]. eapply near_mono; [|exact N]. intros t Ht. cbv beta. rewrite E. exact Ht. Qed.

Theorem unpol_library : calm_unpol d f -> differentiable_unpol d f.
Proof.
  intros C I impl p dim rho mo HI HS R HP HM P (O1 & O2). pose proof R as (Hs & Ht & Hn & Hp). pose proof P as (W & _).
  pose proof (name_family _ _ Ht) as Hf.
  destruct (C I (attrs_of p) (unpol_at (fp_type p) dim (rho 0) (at_time mo 0)) HI Hp (point_unpol_physical d p dim _ _ (level_of d f U _ _ _ R) P)) as ((v & Hv) & K).
  { intros t E. rewrite attr_dens in E. injection E as <-. exact O2. }
  apply (diff_eq _ _ (fun t => epsilon_single I impl p f dim (rho t) (at_time mo t) Hs)).
  apply (single_smooth I f p dim rho mo (if Rlt_dec (f_val (rho 0) []) (dens_threshold (fp_scal p)) then 0 else v) HS HP HM).
  - rewrite <- (epsilon_single I impl p f dim (rho 0) (at_time mo 0) Hs), (eval_unpol d f U I impl p dim (rho 0) (at_time mo 0) R W), Hv.
    destruct (Rlt_dec _ _); reflexivity.
  - intros a Ea. rewrite (args_ok p dim (rho 0) (at_time mo 0) None Hf (or_introl Hn) W) in Ea. injection Ea as <-.
    rewrite dens_expected, (total_spin_of p (rho 0) (at_time mo 0) (or_introl Hn) W). unfold total_density, formula_calm. rewrite Hn. cbn [Nat.eqb].
    split; [exact O1|]. intros _. rewrite (expected_unpol_at p dim (rho 0) (at_time mo 0) Hf Hn W). exact K.
Qed.
Theorem pol_library : calm_pol d f -> differentiable_pol d f.
Proof.
  intros C I impl p dim rho mo HI HS R HP HM P (O1 & O2). pose proof R as (Hs & Ht & Hn & Hp). pose proof P as (W & _).
  pose proof (name_family _ _ Ht) as Hf. destruct (O2 0%nat ltac:(lia)) as [A0 B0]. destruct (O2 1%nat ltac:(lia)) as [A1 B1].
  destruct (C I (attrs_of p) (pol_at (fp_type p) dim (rho 0) (at_time mo 0)) HI Hp (point_pol_physical d p dim _ _ (level_of d f U _ _ _ R) P)) as ((v & Hv) & K).
  { intros t E. rewrite attr_dens in E. injection E as <-. split; assumption. }
  { intros t E. rewrite attr_zeta in E. injection E as <-. split; assumption. }
  apply (diff_eq _ _ (fun t => epsilon_single I impl p f dim (rho t) (at_time mo t) Hs)).
  apply (single_smooth I f p dim rho mo (if Rlt_dec (f_val (rho 0) [0%nat] + f_val (rho 0) [1%nat]) (dens_threshold (fp_scal p)) then 0 else v) HS HP HM).
  - rewrite <- (epsilon_single I impl p f dim (rho 0) (at_time mo 0) Hs), (eval_pol d f U I impl p dim (rho 0) (at_time mo 0) R W), Hv.
    destruct (Rlt_dec _ _); reflexivity.
  - intros a Ea. rewrite (args_ok p dim (rho 0) (at_time mo 0) None Hf (or_intror Hn) W) in Ea. injection Ea as <-.
    rewrite dens_expected, (total_spin_of p (rho 0) (at_time mo 0) (or_intror Hn) W). unfold total_density, formula_calm. rewrite Hn. cbn [Nat.eqb].
    split; [exact O1|]. intros _. rewrite (expected_pol_at p dim (rho 0) (at_time mo 0) Hf Hn W). exact K.
Qed.
End Transfer.

(** ** Non-zero gradients *)
Lemma point_unpol_sloped d p dim rho mo : point_unpol (sloped d) p dim rho mo -> point_unpol d p dim rho mo.
Proof.
  intros (W & A & B & C). split; [exact W|split; [exact A|split; [|exact C]]]. intros H. apply B. unfold sloped. cbn [d_level]. destruct (d_level d); [discriminate|reflexivity|reflexivity].
Qed.
Lemma point_pol_sloped d p dim rho mo : point_pol (sloped d) p dim rho mo -> point_pol d p dim rho mo.
Proof.
  intros (W & A & A' & B & C). split; [exact W|split; [exact A|split; [exact A'|split; [|exact C]]]]. intros H. apply B. unfold sloped. cbn [d_level]. destruct (d_level d); [discriminate|reflexivity|reflexivity].
Qed.
Lemma usable_sloped d f : usable d f -> usable (sloped d) f.
Proof.
  intros [A B]. split; [|exact B]. intros t Ht. specialize (A t Ht). unfold sloped. cbn [d_level]. destruct (d_level d); exact A.
Qed.
Lemma spin_sloped d f : spin_scales_library d f -> spin_scales_library (sloped d) f.
Proof. intros H I impl p p' dim rho up dn mo mo0 mo1 HI R R' S P. exact (H I impl p p' dim rho up dn mo mo0 mo1 HI R R' S (point_pol_sloped _ _ _ _ _ P)). Qed.

(** ** Exchange: from the unpolarized formula *)
Definition channel (s : nat) (rho : field R) : field R :=
  {| f_shape := []; f_val := fun _ => 2 * f_val rho [s]; f_jac := fun _ i => 2 * f_jac rho [s] i; f_hess := fun _ i j => 2 * f_hess rho [s] i j |}.
Definition corb (s : nat) (m : field complex) : field complex :=
  {| f_shape := [nth 1 (f_shape m) 0%nat]; f_val := fun _ => (0, 0);
     f_jac := fun ix i => (sqrt 2 * fst (f_jac m (s :: ix) i), sqrt 2 * snd (f_jac m (s :: ix) i)); f_hess := fun _ _ _ => (0, 0) |}.
Lemma der_scal c g : derives g -> derives (fun t => c * g t).
Proof. intros H. exact (der_mult _ _ (der_const c) H). Qed.
Lemma channel_path s rho : path rho -> path (fun t => channel s (rho t)).
Proof. intros (S & V & J & H). split; [reflexivity|]. split; [|split]; intros; apply der_scal; auto. Qed.
Lemma corb_path s mo : opath mo -> opath (option_map (fun m t => corb s (m t)) mo).
Proof.
  intros H m E. destruct mo as [m'|]; [|discriminate]. injection E as <-. destruct (H m' eq_refl) as [S J]. split.
  - intros t. cbn [corb f_shape]. rewrite (S t). reflexivity.
  - intros ix i. destruct (J (s :: ix) i) as [A B]. split; cbn [corb f_jac fst snd]; apply der_scal; assumption.
Qed.
Lemma corb_tau s dim mo : tau_unpol dim (option_map (corb s) mo) = 2 * tau_pol dim mo s.
Proof.
  destruct mo as [m|]; cbn [option_map tau_unpol tau_pol]; [|ring]. cbn [corb f_shape nth]. unfold orbital_tau.
  rewrite (rsum_ext _ _ (fun n => 2 * rsum dim (fun i => conj_re (f_jac m [s; n] i)))).
  - rewrite rsum_scal. field.
  - intros n _. rewrite <- rsum_scal. apply rsum_ext. intros i _. unfold conj_re. cbn [corb f_jac fst snd].
    assert (E : sqrt 2 * sqrt 2 = 2) by (apply sqrt_sqrt; lra).
    etransitivity; [|rewrite <- E; reflexivity]. ring.
Qed.
Definition one_spin (p : func_p) : func_p :=
  match p with FuncP n t _ m s pa aux mix => FuncP n t 1 m s pa aux mix end.
Lemma one_same p : same_functional p (one_spin p).
Proof. destruct p. repeat split. Qed.
Lemma one_record impl f d n p : record_for impl f d n p -> record_for impl f d 1 (one_spin p).
Proof. destruct p. intros (A & B & _ & D). split; [exact A|split; [exact B|split; [reflexivity|exact D]]]. Qed.

Lemma near_gt g h : derives g -> derives h -> g 0 < h 0 -> near (fun t => g t < h t).
Proof.
  intros Hg Hh L. assert (D : derives (fun t => h t + - 1 * g t)) by (apply der_plus; [exact Hh|apply der_scal, Hg]).
  destruct D as (l & D). eapply near_mono; [|apply (near_pos _ _ D); lra]. intros t Ht. cbv beta in Ht. lra.
Qed.
Lemma near_imp (A : Prop) (P : R -> Prop) : (A -> near P) -> near (fun t => A -> P t).
Proof.
  intros H. destruct (Classical_Prop.classic A) as [a|n]; [eapply near_mono; [|exact (H a)]; auto|apply near_all; intros t a; contradiction].
Qed.
Lemma wf_path p rho mo : path rho -> opath mo -> well_formed p (rho 0) (at_time mo 0) -> forall t, well_formed p (rho t) (at_time mo t).
Proof.
  intros (S & _) HM (A & B & C) t. split; [|split].
  - intros E. rewrite S. auto.
  - intros E. rewrite S. auto.
  - intros E. destruct (C E) as (m & Em & D1 & D2). destruct mo as [m'|]; [|discriminate]. injection Em as <-.
    exists (m' t). split; [reflexivity|]. rewrite (proj1 (HM m' eq_refl) t). split; assumption.
Qed.
Lemma tau_path dim mo s : opath mo -> derives (fun t => tau_pol dim (at_time mo t) s).
Proof.
  intros H. destruct mo as [m|]; cbn [at_time option_map tau_pol]; [|apply der_const]. destruct (H m eq_refl) as [S J].
  eapply der_ext; [intros t; rewrite (S t); reflexivity|]. apply (der_tau dim _ (fun t n => f_jac (m t) [s; n])). intros n i. apply J.
Qed.
Lemma point_near d p dim rho mo : path rho -> opath mo -> point_pol d p dim (rho 0) (at_time mo 0) ->
  near (fun t => point_pol d p dim (rho t) (at_time mo t)).
Proof.
  intros HP HM (W & A & B & C & D). pose proof HP as (S & V & J & H). pose proof (wf_path p rho mo HP HM W) as W'.
  assert (G : forall u v : R -> vec, (forall i, derives (fun t => u t i)) -> (forall i, derives (fun t => v t i)) -> 0 < dot dim (u 0) (v 0) -> near (fun t => 0 < dot dim (u t) (v t))).
  { intros u v Hu Hv L. apply (near_gt (fun _ => 0) (fun t => dot dim (u t) (v t))); [apply der_const|apply der_dot; assumption|exact L]. }
  assert (N0 : near (fun t => 0 < f_val (rho t) [0%nat])) by (apply (near_gt (fun _ => 0) (fun t => f_val (rho t) [0%nat])); [apply der_const|apply V|exact A]).
  assert (N1 : near (fun t => 0 < f_val (rho t) [1%nat])) by (apply (near_gt (fun _ => 0) (fun t => f_val (rho t) [1%nat])); [apply der_const|apply V|exact B]).
  assert (N2 : near (fun t => is_pos (d_level d) = true -> 0 < dot dim (f_jac (rho t) [0%nat]) (f_jac (rho t) [0%nat]) /\
     0 < dot dim (f_jac (rho t) [1%nat]) (f_jac (rho t) [1%nat]) /\ 0 < dot dim (total_jac (rho t)) (total_jac (rho t)))).
  { apply near_imp. intros E. destruct (C E) as (C0 & C1 & C2). apply near_and; [|apply near_and].
    - apply (G (fun t => f_jac (rho t) [0%nat]) (fun t => f_jac (rho t) [0%nat])); auto.
    - apply (G (fun t => f_jac (rho t) [1%nat]) (fun t => f_jac (rho t) [1%nat])); auto.
    - apply (G (fun t => total_jac (rho t)) (fun t => total_jac (rho t))); try exact C2; intros i; unfold total_jac, vadd; apply der_plus; apply J. }
  assert (N3 : near (fun t => fp_type p = "mgga"%b -> 0 < tau_pol dim (at_time mo t) 0 /\ 0 < tau_pol dim (at_time mo t) 1)).
  { apply near_imp. intros E. destruct (D E) as [D0 D1]. apply near_and.
    - apply (near_gt (fun _ => 0) (fun t => tau_pol dim (at_time mo t) 0)); [apply der_const|apply tau_path, HM|exact D0].
    - apply (near_gt (fun _ => 0) (fun t => tau_pol dim (at_time mo t) 1)); [apply der_const|apply tau_path, HM|exact D1]. }
  eapply near_mono; [|exact (near_and _ _ N0 (near_and _ _ N1 (near_and _ _ N2 N3)))].
  intros t (X0 & X1 & X2 & X3). split; [apply W'|split; [exact X0|split; [exact X1|split; assumption]]].
Qed.
Lemma at_corb s mo t : at_time (option_map (fun m t => corb s (m t)) mo) t = option_map (corb s) (at_time mo t).
Proof. destruct mo; reflexivity. Qed.
Lemma channel_doubled s dim rho : doubled s dim rho (channel s rho).
Proof. repeat split. Qed.
Lemma one_type p : fp_type (one_spin p) = fp_type p. Proof. destruct p. reflexivity. Qed.
Lemma one_scal p : fp_scal (one_spin p) = fp_scal p. Proof. destruct p. reflexivity. Qed.
Lemma one_nspin p : fp_nspin (one_spin p) = 1%nat. Proof. destruct p. reflexivity. Qed.
Lemma channel_wf p s rho mo : well_formed p rho mo -> well_formed (one_spin p) (channel s rho) (option_map (corb s) mo).
Proof.
  intros (_ & _ & C). split; [reflexivity|]. rewrite one_nspin, one_type. split; [discriminate|].
  intros E. destruct (C E) as (m & -> & _). eexists. split; [reflexivity|]. split; [|discriminate]. intros _. eexists. reflexivity.
Qed.
Lemma channel_point d p dim s rho mo : (s < 2)%nat -> point_pol d p dim rho mo ->
  point_unpol d (one_spin p) dim (channel s rho) (option_map (corb s) mo).
Proof.
  intros Hs (W & A & B & C & D). split; [apply channel_wf, W|]. rewrite one_type.
  assert (G : dot dim (f_jac (channel s rho) []) (f_jac (channel s rho) []) = 2 * 2 * dot dim (f_jac rho [s]) (f_jac rho [s])) by (apply dot_map; reflexivity).
  rewrite G, corb_tau. cbn [channel f_val].
  assert (Es : s = 0%nat \/ s = 1%nat) by lia. split; [destruct Es as [-> | ->]; lra|]. split; intros E; [destruct (C E) as (C0 & C1 & _)|destruct (D E) as (C0 & C1)]; destruct Es as [-> | ->]; lra.
Qed.

Theorem exchange_library d f : spin_scales_library d f -> differentiable_unpol d f -> differentiable_above d f.
Proof.
  intros HX HU I impl p dim rho mo HI HS R HP HM P [N0 N1] [C0 C1]. pose proof HP as (S & V & J & H). pose proof P as (W & Q0 & Q1 & _).
  pose proof (one_record impl f d 2 p R) as R'.
  assert (DU : forall s, (s < 2)%nat -> differentiable (fun t => epsilon_xc I impl (one_spin p) dim (channel s (rho t)) (option_map (corb s) (at_time mo t)))).
  { intros s Hs. apply (diff_eq _ (fun t => epsilon_xc I impl (one_spin p) dim (channel s (rho t)) (at_time (option_map (fun m t => corb s (m t)) mo) t))).
    { intros t. rewrite at_corb. reflexivity. }
    apply (HU I impl (one_spin p) dim (fun t => channel s (rho t)) (option_map (fun m t => corb s (m t)) mo) HI HS R' (channel_path s rho HP) (corb_path s mo HM)).
    - rewrite at_corb. apply channel_point; assumption.
    - unfold off_unpol. rewrite one_scal. cbn [channel f_val]. assert (Es : s = 0%nat \/ s = 1%nat) by lia. destruct Es as [-> | ->]; split; lra. }
  destruct (DU 0%nat ltac:(lia)) as (g & Hg & Ng). destruct (DU 1%nat ltac:(lia)) as (h & Hh & Nh).
  pose (n := fun t => f_val (rho t) [0%nat] + f_val (rho t) [1%nat]).
  assert (Dn : derives n) by (apply der_plus; apply V). assert (Pn : n 0 <> 0) by (unfold n; lra).
  exists (fun t => (f_val (rho t) [0%nat] * g t + f_val (rho t) [1%nat] * h t) / n t). split.
  { apply der_quot; [|exact Dn|exact Pn]. apply der_plus; apply der_mult; auto. }
  set (thr := dens_threshold (fp_scal p)) in *. set (zt := zeta_threshold (fp_scal p)) in *.
  assert (M0 : near (fun t => thr < f_val (rho t) [0%nat])) by (apply (near_gt (fun _ => thr) (fun t => f_val (rho t) [0%nat])); [apply der_const|apply V|exact N0]).
  assert (M1 : near (fun t => thr < f_val (rho t) [1%nat])) by (apply (near_gt (fun _ => thr) (fun t => f_val (rho t) [1%nat])); [apply der_const|apply V|exact N1]).
  assert (Z0 : near (fun t => zt < 2 * f_val (rho t) [0%nat] / n t)) by (apply (near_gt (fun _ => zt) (fun t => 2 * f_val (rho t) [0%nat] / n t)); [apply der_const|apply der_quot; [apply der_scal, V|exact Dn|exact Pn]|exact C0]).
  assert (Z1 : near (fun t => zt < 2 * f_val (rho t) [1%nat] / n t)) by (apply (near_gt (fun _ => zt) (fun t => 2 * f_val (rho t) [1%nat] / n t)); [apply der_const|apply der_quot; [apply der_scal, V|exact Dn|exact Pn]|exact C1]).
  eapply near_mono; [|exact (near_and _ _ Ng (near_and _ _ Nh (near_and _ _ M0 (near_and _ _ M1 (near_and _ _ Z0 (near_and _ _ Z1 (point_near d p dim rho mo HP HM P)))))))].
  intros t (Eg & Eh & T0 & T1 & X0 & X1 & Pt). cbv beta in *.
  destruct (HX I impl p (one_spin p) dim (rho t) (channel 0 (rho t)) (channel 1 (rho t)) (at_time mo t) (option_map (corb 0) (at_time mo t)) (option_map (corb 1) (at_time mo t)) HI R R' (one_same p) Pt) as (e & u & w & Ee & Eu & Ew & Eq).
  - apply channel_wf, Pt.
  - apply channel_wf, Pt.
  - apply channel_doubled.
  - apply channel_doubled.
  - intros _. split; apply corb_tau.
  - split; assumption.
  - split; assumption.
  - rewrite Eg in Eu. injection Eu as <-. rewrite Eh in Ew. injection Ew as <-. rewrite Ee. do 2 f_equal.
    cbn [channel f_val] in Eq. pose proof Pt as (_ & Y0 & Y1 & _). unfold n. apply (Rmult_eq_reg_l (f_val (rho t) [0%nat] + f_val (rho t) [1%nat])); [|lra].
    rewrite Eq. field. lra.
Qed.
