(** The statements about formulas, carried over to the callable the library returns: densities
    and orbitals in, energy density out (C01-C06, C33). *)
From Coq Require Import Reals List Bool QArith NArith Arith Lra Lia.
From Verif Require Import Bytes Syntax Parser PostProcess Src Ast Semantics Free Vec Impl ImplThm ImplThm2 ImplThm4 Records
  Families Interval Absint AbsintThm Defined Exact Inputs.
Import ListNotations.
Open Scope R_scope.

(** ** Statements *)

(** [p] is the record of the functional [f], in the spin mode [n], with the parameters in the
    domain [d]; the family is the one libxc derives from the name. *)
Definition record_for (impl : modules) (f : source) (d : domain) (n : nat) (p : func_p) : Prop :=
  single impl p f /\ name_to_type (src_name f) = Ok (fp_type p) /\ fp_nspin p = n /\ params_ok (attrs_of p) (d_pars d).
(** Two records of the same functional in different spin modes. *)
Definition same_functional (p q : func_p) : Prop :=
  fp_type p = fp_type q /\ fp_maple p = fp_maple q /\ fp_scal p = fp_scal q /\ fp_params p = fp_params q.

(** Kinetic energy densities of the orbitals. *)
Definition tau_unpol (dim : nat) (mo : option (field complex)) : R :=
  match mo with Some m => orbital_tau dim (nth 0 (f_shape m) 0%nat) (fun n => f_jac m [n]) | None => 0 end.
Definition tau_pol (dim : nat) (mo : option (field complex)) (s : nat) : R :=
  match mo with Some m => orbital_tau dim (nth 1 (f_shape m) 0%nat) (fun n => f_jac m [s; n]) | None => 0 end.

(** A physical point: positive densities and, for a meta-GGA, positive kinetic energy densities;
    non-zero gradients where the domain asks for it. *)
Definition point_unpol (d : domain) (p : func_p) (dim : nat) (rho : field R) (mo : option (field complex)) : Prop :=
  well_formed p rho mo /\ 0 < f_val rho [] /\
  (is_pos (d_level d) = true -> 0 < dot dim (f_jac rho []) (f_jac rho [])) /\
  (fp_type p = "mgga"%b -> 0 < tau_unpol dim mo).
Definition total_jac (rho : field R) : vec := vadd (f_jac rho [0%nat]) (f_jac rho [1%nat]).
Definition point_pol (d : domain) (p : func_p) (dim : nat) (rho : field R) (mo : option (field complex)) : Prop :=
  well_formed p rho mo /\ 0 < f_val rho [0%nat] /\ 0 < f_val rho [1%nat] /\
  (is_pos (d_level d) = true -> 0 < dot dim (f_jac rho [0%nat]) (f_jac rho [0%nat]) /\
     0 < dot dim (f_jac rho [1%nat]) (f_jac rho [1%nat]) /\ 0 < dot dim (total_jac rho) (total_jac rho)) /\
  (fp_type p = "mgga"%b -> 0 < tau_pol dim mo 0 /\ 0 < tau_pol dim mo 1).

(** C06: the callable returns a number. *)
Definition returns_number (d : domain) (f : source) : Prop :=
  forall I impl p dim rho mo, ops_ok I ->
  (record_for impl f d 1 p /\ point_unpol d p dim rho mo) \/ (record_for impl f d 2 p /\ point_pol d p dim rho mo) ->
  exists v, epsilon_xc I impl p dim rho mo = Ok (Some v).
(** C33 *)
Definition returns_nonpositive (d : domain) (f : source) : Prop :=
  forall I impl p dim rho mo, ops_ok I ->
  (record_for impl f d 1 p /\ point_unpol d p dim rho mo) \/ (record_for impl f d 2 p /\ point_pol d p dim rho mo) ->
  exists v, epsilon_xc I impl p dim rho mo = Ok (Some v) /\ v <= 0.

(** C01: both channels of [rho'] are half of [rho], and so are the kinetic energy densities. *)
Definition halves (dim : nat) (rho rho' : field R) : Prop :=
  forall s, (s < 2)%nat -> f_val rho' [s] = f_val rho [] / 2 /\
  (forall i, (i < dim)%nat -> f_jac rho' [s] i = f_jac rho [] i / 2) /\
  (forall i, (i < dim)%nat -> f_hess rho' [s] i i = f_hess rho [] i i / 2).
Definition closed_shell_library (d : domain) (f : source) : Prop :=
  forall I impl p p' dim rho rho' mo mo', ops_ok I ->
  record_for impl f d 1 p -> record_for impl f d 2 p' -> same_functional p p' ->
  point_unpol d p dim rho mo -> well_formed p' rho' mo' -> halves dim rho rho' ->
  (fp_type p = "mgga"%b -> forall s, (s < 2)%nat -> tau_pol dim mo' s = tau_unpol dim mo / 2) ->
  exists v, epsilon_xc I impl p dim rho mo = Ok (Some v) /\ epsilon_xc I impl p' dim rho' mo' = Ok (Some v).

(** C02: the channels are exchanged. *)
Definition exchanged (dim : nat) (rho rho' : field R) : Prop :=
  forall s t, (s = 0 /\ t = 1 \/ s = 1 /\ t = 0)%nat -> f_val rho' [s] = f_val rho [t] /\
  (forall i, (i < dim)%nat -> f_jac rho' [s] i = f_jac rho [t] i) /\
  (forall i, (i < dim)%nat -> f_hess rho' [s] i i = f_hess rho [t] i i).
Definition spin_symmetric_library (d : domain) (f : source) : Prop :=
  forall I impl p dim rho rho' mo mo', ops_ok I -> record_for impl f d 2 p ->
  point_pol d p dim rho mo -> well_formed p rho' mo' -> exchanged dim rho rho' ->
  (fp_type p = "mgga"%b -> tau_pol dim mo' 0 = tau_pol dim mo 1 /\ tau_pol dim mo' 1 = tau_pol dim mo 0) ->
  exists v, epsilon_xc I impl p dim rho mo = Ok (Some v) /\ epsilon_xc I impl p dim rho' mo' = Ok (Some v).

(** C03: the density n and its derivatives scale as those of g^3 n(g r), the kinetic energy
    density as g^5. *)
Definition scaled (g : R) (dim : nat) (rho rho' : field R) : Prop :=
  forall s, (s < 2)%nat -> f_val rho' [s] = g ^ 3 * f_val rho [s] /\
  (forall i, (i < dim)%nat -> f_jac rho' [s] i = g ^ 4 * f_jac rho [s] i) /\
  (forall i, (i < dim)%nat -> f_hess rho' [s] i i = g ^ 5 * f_hess rho [s] i i).
Definition unscreened (p : func_p) (rho : field R) : Prop :=
  dens_threshold (fp_scal p) < f_val rho [0%nat] /\ dens_threshold (fp_scal p) < f_val rho [1%nat].
Definition scales_library (n : nat) (d : domain) (f : source) : Prop :=
  forall I impl p dim rho rho' mo mo' g, ops_ok I -> record_for impl f d 2 p -> 0 < g ->
  point_pol d p dim rho mo -> well_formed p rho' mo' -> scaled g dim rho rho' ->
  (fp_type p = "mgga"%b -> forall s, (s < 2)%nat -> tau_pol dim mo' s = g ^ 5 * tau_pol dim mo s) ->
  unscreened p rho -> unscreened p rho' ->
  exists v, epsilon_xc I impl p dim rho mo = Ok (Some v) /\ epsilon_xc I impl p dim rho' mo' = Ok (Some (g ^ n * v)).

(** C04: [rho'] is twice the channel [s] of [rho]. *)
Definition doubled (s : nat) (dim : nat) (rho rho' : field R) : Prop :=
  f_val rho' [] = 2 * f_val rho [s] /\
  (forall i, (i < dim)%nat -> f_jac rho' [] i = 2 * f_jac rho [s] i) /\
  (forall i, (i < dim)%nat -> f_hess rho' [] i i = 2 * f_hess rho [s] i i).
Definition unclipped (p : func_p) (rho : field R) : Prop :=
  zeta_threshold (fp_scal p) < 2 * f_val rho [0%nat] / (f_val rho [0%nat] + f_val rho [1%nat]) /\
  zeta_threshold (fp_scal p) < 2 * f_val rho [1%nat] / (f_val rho [0%nat] + f_val rho [1%nat]).
Definition spin_scales_library (d : domain) (f : source) : Prop :=
  forall I impl p p' dim rho up dn mo mo0 mo1, ops_ok I ->
  record_for impl f d 2 p -> record_for impl f d 1 p' -> same_functional p p' ->
  point_pol d p dim rho mo -> well_formed p' up mo0 -> well_formed p' dn mo1 ->
  doubled 0 dim rho up -> doubled 1 dim rho dn ->
  (fp_type p = "mgga"%b -> tau_unpol dim mo0 = 2 * tau_pol dim mo 0 /\ tau_unpol dim mo1 = 2 * tau_pol dim mo 1) ->
  unscreened p rho -> unclipped p rho ->
  exists e u w, epsilon_xc I impl p dim rho mo = Ok (Some e) /\
  epsilon_xc I impl p' dim up mo0 = Ok (Some u) /\ epsilon_xc I impl p' dim dn mo1 = Ok (Some w) /\
  (f_val rho [0%nat] + f_val rho [1%nat]) * e = (f_val up [] * u + f_val dn [] * w) / 2.

(** C05: a uniform density. *)
Definition uniform (dim : nat) (rho : field R) : Prop :=
  forall s, (s < 2)%nat -> (forall i, (i < dim)%nat -> f_jac rho [s] i = 0) /\ (forall i, (i < dim)%nat -> f_hess rho [s] i i = 0).
Definition uniform_library (e : R -> R -> R) (d : domain) (f : source) : Prop :=
  forall I impl p dim rho mo, ops_ok I -> record_for impl f d 2 p ->
  point_pol d p dim rho mo -> uniform dim rho ->
  (fp_type p = "mgga"%b -> forall s, (s < 2)%nat -> tau_pol dim mo s = tf (f_val rho [s])) ->
  unscreened p rho -> unclipped p rho ->
  exists v, epsilon_xc I impl p dim rho mo = Ok (Some v) /\
  (f_val rho [0%nat] + f_val rho [1%nat]) * v = e (f_val rho [0%nat]) (f_val rho [1%nat]).

(** ** What has to be checked for a functional *)
Definition thresholds_and (d : domain) : list bstr := "p.zeta_threshold"%b :: "p.dens_threshold"%b :: map fst (d_pars d).
Definition level_fits (t : bstr) (l : level) : bool :=
  match l with Lda => beqb t "lda" | Gga _ => beqb t "gga" | Mgga _ => beqb t "mgga" end.
Definition attrs_in (d : domain) (p : program) : bool := scoped_prog (fun x => negb (attr_name x) || mem x (thresholds_and d)) Leaf p.
Definition library_ok (d : domain) (c : compiled) : bool :=
  inputs_ok c && negb (calls_undefined (c_pol c)) && negb (calls_undefined (c_unpol c)) &&
  match name_to_type (src_name (c_src c)) with Ok t => level_fits t (d_level d) | Err _ => false end &&
  attrs_in d (c_pol c) && attrs_in d (c_unpol c).

(** The checked facts about [f] that the transfer uses. *)
Record usable (d : domain) (f : source) : Prop := {
  us_level : forall t, name_to_type (src_name f) = Ok t -> level_fits t (d_level d) = true;
  us_eval : forall I impl p dim rho mo n, record_for impl f d n p -> nspin_ok p -> well_formed p rho mo ->
    epsilon_xc I impl p dim rho mo =
      Ok (if Rlt_dec (total_at p rho) (dens_threshold (fp_scal p)) then Some 0
          else formula_value I p f (expected_args p dim rho mo None)) }.

Lemma params_has_attrs A d p : params_ok A (d_pars d) -> attrs_in d p = true ->
  forall x, In x (free p) -> attr_name x = true -> A x <> None.
Proof.
  intros ((z & Hz & _) & (t & Ht) & Hp) H x Hx Ha. pose proof (scoped_ok _ _ H x Hx) as O. cbn beta in O.
  rewrite Ha in O. cbn [negb orb] in O. apply mem_In in O. destruct O as [<-|[<-|O]]; [congruence|congruence|].
  apply in_map_iff in O. destruct O as ((y & s) & <- & Hin). destruct (Hp _ _ Hin) as (v & Hv & _). cbn [fst]. congruence.
Qed.
Theorem library_sound d c : library_ok d c = true -> usable d (c_src c).
Proof.
  intros H. unfold library_ok in H.
  apply andb_prop in H. destruct H as [H A2]. apply andb_prop in H. destruct H as [H A1]. apply andb_prop in H. destruct H as [H L].
  apply andb_prop in H. destruct H as [H U2]. apply andb_prop in H. destruct H as [H U1]. apply negb_true_iff in U1, U2.
  split.
  - intros t Ht. rewrite Ht in L. exact L.
  - intros I impl p dim rho mo n (Hs & Ht & Hn & HP) Hn' W. apply epsilon_ok; try assumption.
    unfold formula_text. destruct (fp_nspin p =? 2)%nat.
    + intros prog x G Hx Ha. rewrite (c_pol_ok c) in G. injection G as <-. apply (params_has_attrs _ d _ HP A1 x Hx Ha).
    + intros prog x G Hx Ha. rewrite (c_unpol_ok c) in G. injection G as <-. apply (params_has_attrs _ d _ HP A2 x Hx Ha).
Qed.

(** ** The arguments at a point *)
Definition has_s (t : bstr) : bool := negb (beqb t "lda").
Definition has_tau (t : bstr) : bool := beqb t "mgga".
Definition when {A} (b : bool) (x : A) : option A := if b then Some x else None.
Definition lap (dim : nat) (rho : field R) (ix : list nat) : R := rsum dim (fun i => f_hess rho ix i i).
Definition unpol_at (t : bstr) (dim : nat) (rho : field R) (mo : option (field complex)) : unpol_args := {|
  u_r := f_val rho []; u_s := when (has_s t) (dot dim (f_jac rho []) (f_jac rho []));
  u_l := when (has_tau t) (lap dim rho []); u_tau := when (has_tau t) (tau_unpol dim mo) |}.
Definition pol_at (t : bstr) (dim : nat) (rho : field R) (mo : option (field complex)) : pol_args := {|
  p_r0 := f_val rho [0%nat]; p_r1 := f_val rho [1%nat];
  p_s0 := when (has_s t) (dot dim (f_jac rho [0%nat]) (f_jac rho [0%nat]));
  p_s1 := when (has_s t) (dot dim (f_jac rho [0%nat]) (f_jac rho [1%nat]));
  p_s2 := when (has_s t) (dot dim (f_jac rho [1%nat]) (f_jac rho [1%nat]));
  p_l0 := when (has_tau t) (lap dim rho [0%nat]); p_l1 := when (has_tau t) (lap dim rho [1%nat]);
  p_tau0 := when (has_tau t) (tau_pol dim mo 0); p_tau1 := when (has_tau t) (tau_pol dim mo 1) |}.

Lemma expected_unpol_at p dim rho mo : family (fp_type p) -> fp_nspin p = 1%nat -> well_formed p rho mo ->
  to_unpol (expected_args p dim rho mo None) = unpol_at (fp_type p) dim rho mo.
Proof.
  intros Hf Hn (W1 & _ & W3). specialize (W1 Hn). unfold expected_args, unpol_at, is_type, has_s, has_tau, spin_of. rewrite W1, Hn. cbn [Nat.eqb].
  destruct Hf as [E|[E|E]]; rewrite E in *; cbn -[dot]; try reflexivity.
  destruct (W3 eq_refl) as (m & -> & K & _). destruct (K Hn) as (N & HN). unfold kinetic, tau_unpol, to_unpol. rewrite HN. reflexivity.
Qed.
Lemma expected_pol_at p dim rho mo : family (fp_type p) -> fp_nspin p = 2%nat -> well_formed p rho mo ->
  to_pol (expected_args p dim rho mo None) = pol_at (fp_type p) dim rho mo.
Proof.
  intros Hf Hn (_ & W2 & W3). specialize (W2 Hn). unfold expected_args, pol_at, is_type, has_s, has_tau, spin_of. rewrite W2, Hn. cbn [Nat.eqb].
  destruct Hf as [E|[E|E]]; rewrite E in *; cbn -[dot]; try reflexivity.
  destruct (W3 eq_refl) as (m & -> & _ & K). destruct (K Hn) as (N & HN). unfold kinetic, tau_pol, to_pol. rewrite HN. reflexivity.
Qed.
Lemma grad_sum dim rho : dot dim (f_jac rho [0%nat]) (f_jac rho [0%nat]) + 2 * dot dim (f_jac rho [0%nat]) (f_jac rho [1%nat]) +
  dot dim (f_jac rho [1%nat]) (f_jac rho [1%nat]) = dot dim (total_jac rho) (total_jac rho).
Proof. unfold total_jac. rewrite dot_add_l, !dot_add_r, (dot_comm dim (f_jac rho [1%nat]) (f_jac rho [0%nat])). lra. Qed.
Lemma level_cases t l : level_fits t l = true ->
  (t = "lda"%b /\ l = Lda) \/ (exists b, t = "gga"%b /\ l = Gga b) \/ (exists b, t = "mgga"%b /\ l = Mgga b).
Proof. destruct l as [|b|b]; cbn [level_fits]; intros H; apply beqb_eq in H; [left|right; left|right; right]; eauto. Qed.
Lemma grad_of pos x : 0 <= x -> (pos = true -> 0 < x) -> grad_ok pos x.
Proof. destruct pos; cbn [grad_ok]; auto. Qed.
Lemma point_unpol_physical d p dim rho mo : level_fits (fp_type p) (d_level d) = true -> point_unpol d p dim rho mo ->
  physical_unpol (d_level d) (unpol_at (fp_type p) dim rho mo).
Proof.
  intros L (W & H0 & HG & HT). split; [exact H0|].
  destruct (level_cases _ _ L) as [[E ->]|[(b & E & El)|(b & E & El)]]; rewrite ?El in *; rewrite E in *; cbn [is_pos] in HG.
  - exact Logic.I.
  - eexists. split; [reflexivity|]. apply grad_of; [apply dot_self_nonneg|exact HG].
  - split; [eexists; split; [reflexivity|]; apply grad_of; [apply dot_self_nonneg|exact HG]|].
    split; [eexists; reflexivity|]. eexists. split; [reflexivity|]. apply HT. reflexivity.
Qed.
Lemma point_pol_physical d p dim rho mo : level_fits (fp_type p) (d_level d) = true -> point_pol d p dim rho mo ->
  physical_pol (d_level d) (pol_at (fp_type p) dim rho mo).
Proof.
  intros L (W & H0 & H1 & HG & HT). split; [exact H0|]. split; [exact H1|].
  destruct (level_cases _ _ L) as [[E ->]|[(b & E & El)|(b & E & El)]]; rewrite ?El in *; rewrite E in *; cbn [is_pos] in HG.
  - split; exact Logic.I.
  - do 3 eexists. repeat split; try reflexivity; rewrite ?grad_sum; apply grad_of; try apply dot_self_nonneg; intros P; apply HG, P.
  - split.
    + do 3 eexists. repeat split; try reflexivity; rewrite ?grad_sum; apply grad_of; try apply dot_self_nonneg; intros P; apply HG, P.
    + destruct (HT eq_refl) as [T0 T1]. repeat split; (eexists; reflexivity) || (eexists; split; [reflexivity|assumption]).
Qed.

Lemma attrs_same p q : same_functional p q -> attrs_of p = attrs_of q.
Proof. intros (_ & _ & E1 & E2). unfold attrs_of. rewrite E1, E2. reflexivity. Qed.
Lemma dot_map dim k l (u u' v v' : vec) : (forall i, (i < dim)%nat -> u i = k * u' i) -> (forall i, (i < dim)%nat -> v i = l * v' i) ->
  dot dim u v = k * l * dot dim u' v'.
Proof.
  intros Hu Hv. rewrite (dot_ext dim u (vscal k u') v (vscal l v')) by assumption. rewrite dot_scal_l, dot_scal_r. ring.
Qed.
Lemma lap_map dim k rho rho' ix ix' : (forall i, (i < dim)%nat -> f_hess rho' ix' i i = k * f_hess rho ix i i) ->
  lap dim rho' ix' = k * lap dim rho ix.
Proof. intros H. unfold lap. rewrite <- rsum_scal. apply rsum_ext. exact H. Qed.

Lemma when_tau t (x y : R) : (t = "mgga"%b -> x = y) -> when (has_tau t) x = when (has_tau t) y.
Proof. unfold has_tau. intros H. destruct (beqb t "mgga") eqn:E; [|reflexivity]. rewrite H by (apply beqb_eq, E). reflexivity. Qed.

(** What the relations between densities say about the arguments. *)
Lemma closed_args t dim rho rho' mo mo' : halves dim rho rho' ->
  (t = "mgga"%b -> forall s, (s < 2)%nat -> tau_pol dim mo' s = tau_unpol dim mo / 2) ->
  pol_at t dim rho' mo' = closed_shell (unpol_at t dim rho mo).
Proof.
  intros Hh Ht. destruct (Hh 0%nat ltac:(lia)) as (V0 & J0 & H0). destruct (Hh 1%nat ltac:(lia)) as (V1 & J1 & H1).
  assert (J : forall s, (s < 2)%nat -> forall i, (i < dim)%nat -> f_jac rho' [s] i = / 2 * f_jac rho [] i) by (intros s Hs i Hi; rewrite (proj1 (proj2 (Hh s Hs)) i Hi); lra).
  assert (L : forall s, (s < 2)%nat -> lap dim rho' [s] = lap dim rho [] / 2).
  { intros s Hs. rewrite (lap_map dim (/ 2) rho rho' [] [s]); [lra|]. intros i Hi. rewrite (proj2 (proj2 (Hh s Hs)) i Hi). lra. }
  unfold pol_at, closed_shell, unpol_at. cbn [u_r u_s u_l u_tau]. rewrite V0, V1, !L by lia.
  rewrite (when_tau t (tau_pol dim mo' 0) (tau_unpol dim mo / 2)) by (intros K; apply (Ht K); lia).
  rewrite (when_tau t (tau_pol dim mo' 1) (tau_unpol dim mo / 2)) by (intros K; apply (Ht K); lia).
  rewrite (dot_map dim (/2) (/2) (f_jac rho' [0%nat]) (f_jac rho []) (f_jac rho' [0%nat]) (f_jac rho [])) by (apply J; lia).
  rewrite (dot_map dim (/2) (/2) (f_jac rho' [0%nat]) (f_jac rho []) (f_jac rho' [1%nat]) (f_jac rho [])) by (apply J; lia).
  rewrite (dot_map dim (/2) (/2) (f_jac rho' [1%nat]) (f_jac rho []) (f_jac rho' [1%nat]) (f_jac rho [])) by (apply J; lia).
  replace (/ 2 * / 2 * dot dim (f_jac rho []) (f_jac rho [])) with (dot dim (f_jac rho []) (f_jac rho []) / 4) by lra.
  destruct (has_s t), (has_tau t); reflexivity.
Qed.
Lemma swap_args t dim rho rho' mo mo' : exchanged dim rho rho' ->
  (t = "mgga"%b -> tau_pol dim mo' 0 = tau_pol dim mo 1 /\ tau_pol dim mo' 1 = tau_pol dim mo 0) ->
  pol_at t dim rho' mo' = swap_spins (pol_at t dim rho mo).
Proof.
  intros X HT. destruct (X 0%nat 1%nat ltac:(lia)) as (V0 & J0 & H0). destruct (X 1%nat 0%nat ltac:(lia)) as (V1 & J1 & H1).
  unfold pol_at, swap_spins. cbn [p_r0 p_r1 p_s0 p_s1 p_s2 p_l0 p_l1 p_tau0 p_tau1].
  rewrite V0, V1. rewrite (when_tau _ _ _ (fun K => proj1 (HT K))), (when_tau _ _ _ (fun K => proj2 (HT K))). unfold lap. rewrite (rsum_ext dim (fun i => f_hess rho' [0%nat] i i) _ H0), (rsum_ext dim (fun i => f_hess rho' [1%nat] i i) _ H1).
  rewrite (dot_ext dim (f_jac rho' [0%nat]) (f_jac rho [1%nat]) (f_jac rho' [0%nat]) (f_jac rho [1%nat])) by assumption.
  rewrite (dot_ext dim (f_jac rho' [1%nat]) (f_jac rho [0%nat]) (f_jac rho' [1%nat]) (f_jac rho [0%nat])) by assumption.
  rewrite (dot_ext dim (f_jac rho' [0%nat]) (f_jac rho [1%nat]) (f_jac rho' [1%nat]) (f_jac rho [0%nat])) by assumption.
  rewrite (dot_comm dim (f_jac rho [1%nat]) (f_jac rho [0%nat])). reflexivity.
Qed.
Lemma scaled_args t g dim rho rho' mo mo' : scaled g dim rho rho' ->
  (t = "mgga"%b -> forall s, (s < 2)%nat -> tau_pol dim mo' s = g ^ 5 * tau_pol dim mo s) ->
  pol_at t dim rho' mo' = scale_args g (pol_at t dim rho mo).
Proof.
  intros S Ht. destruct (S 0%nat ltac:(lia)) as (V0 & J0 & H0). destruct (S 1%nat ltac:(lia)) as (V1 & J1 & H1).
  unfold pol_at, scale_args. cbn [p_r0 p_r1 p_s0 p_s1 p_s2 p_l0 p_l1 p_tau0 p_tau1].
  rewrite V0, V1. rewrite (when_tau _ _ _ (fun K => Ht K 0%nat ltac:(lia))), (when_tau _ _ _ (fun K => Ht K 1%nat ltac:(lia))).
  rewrite (lap_map dim (g ^ 5) rho rho' [0%nat] [0%nat] H0), (lap_map dim (g ^ 5) rho rho' [1%nat] [1%nat] H1).
  rewrite (dot_map dim (g^4) (g^4) (f_jac rho' [0%nat]) (f_jac rho [0%nat]) (f_jac rho' [0%nat]) (f_jac rho [0%nat])) by assumption.
  rewrite (dot_map dim (g^4) (g^4) (f_jac rho' [0%nat]) (f_jac rho [0%nat]) (f_jac rho' [1%nat]) (f_jac rho [1%nat])) by assumption.
  rewrite (dot_map dim (g^4) (g^4) (f_jac rho' [1%nat]) (f_jac rho [1%nat]) (f_jac rho' [1%nat]) (f_jac rho [1%nat])) by assumption.
  replace (g ^ 4 * g ^ 4) with (g ^ 8) by ring.
  destruct (has_s t), (has_tau t); reflexivity.
Qed.
Lemma up_args t dim rho up mo mo0 : doubled 0 dim rho up -> (t = "mgga"%b -> tau_unpol dim mo0 = 2 * tau_pol dim mo 0) ->
  unpol_at t dim up mo0 = spin_up (pol_at t dim rho mo).
Proof.
  intros (Vu & Ju & Hu) HT. unfold unpol_at, spin_up. cbn [pol_at p_r0 p_s0 p_l0 p_tau0]. rewrite Vu, (when_tau _ _ _ HT), (lap_map dim 2 rho up [0%nat] [] Hu).
  rewrite (dot_map dim 2 2 (f_jac up []) (f_jac rho [0%nat]) (f_jac up []) (f_jac rho [0%nat])) by assumption.
  replace (2 * 2) with 4 by lra. destruct (has_s t), (has_tau t); reflexivity.
Qed.
Lemma down_args t dim rho dn mo mo1 : doubled 1 dim rho dn -> (t = "mgga"%b -> tau_unpol dim mo1 = 2 * tau_pol dim mo 1) ->
  unpol_at t dim dn mo1 = spin_down (pol_at t dim rho mo).
Proof.
  intros (Vd & Jd & Hd) HT. unfold unpol_at, spin_down. cbn [pol_at p_r1 p_s2 p_l1 p_tau1]. rewrite Vd, (when_tau _ _ _ HT), (lap_map dim 2 rho dn [1%nat] [] Hd).
  rewrite (dot_map dim 2 2 (f_jac dn []) (f_jac rho [1%nat]) (f_jac dn []) (f_jac rho [1%nat])) by assumption.
  replace (2 * 2) with 4 by lra. destruct (has_s t), (has_tau t); reflexivity.
Qed.
(** A formula of a GGA does not read the Laplacian and tau, an LDA reads the densities only. *)
Definition restrict (t : bstr) (a : pol_args) : pol_args := {|
  p_r0 := p_r0 a; p_r1 := p_r1 a;
  p_s0 := if has_s t then p_s0 a else None; p_s1 := if has_s t then p_s1 a else None; p_s2 := if has_s t then p_s2 a else None;
  p_l0 := if has_tau t then p_l0 a else None; p_l1 := if has_tau t then p_l1 a else None;
  p_tau0 := if has_tau t then p_tau0 a else None; p_tau1 := if has_tau t then p_tau1 a else None |}.
Definition reads_family (f : source) (t : bstr) : Prop := forall I A a, pol f I A (restrict t a) = pol f I A a.
Lemma uniform_args t dim rho mo : uniform dim rho ->
  (t = "mgga"%b -> forall s, (s < 2)%nat -> tau_pol dim mo s = tf (f_val rho [s])) ->
  pol_at t dim rho mo = restrict t (uniform_gas (f_val rho [0%nat]) (f_val rho [1%nat])).
Proof.
  intros Hu Ht. unfold pol_at, restrict, uniform_gas. cbn [p_r0 p_r1 p_s0 p_s1 p_s2 p_l0 p_l1 p_tau0 p_tau1].
  assert (D : forall s t, (s < 2)%nat -> (t < 2)%nat -> dot dim (f_jac rho [s]) (f_jac rho [t]) = 0).
  { intros s r Hs Hx. rewrite (dot_map dim 0 0 _ (f_jac rho [s]) _ (f_jac rho [r])); [ring| |]; intros i Hi; [rewrite (proj1 (Hu s Hs) i Hi)|rewrite (proj1 (Hu r Hx) i Hi)]; ring. }
  assert (L : forall s, (s < 2)%nat -> lap dim rho [s] = 0).
  { intros s Hs. rewrite (lap_map dim 0 rho rho [s] [s]); [ring|]. intros i Hi. rewrite (proj2 (Hu s Hs) i Hi). ring. }
  rewrite !D, !L by lia. rewrite (when_tau _ _ _ (fun K => Ht K 0%nat ltac:(lia))), (when_tau _ _ _ (fun K => Ht K 1%nat ltac:(lia))).
  unfold when. reflexivity.
Qed.

(** ** Transfer *)
Section Transfer.
Variables (d : domain) (f : source).
Hypothesis U : usable d f.

Lemma eval_unpol I impl p dim rho mo : record_for impl f d 1 p -> well_formed p rho mo ->
  epsilon_xc I impl p dim rho mo =
    Ok (if Rlt_dec (f_val rho []) (dens_threshold (fp_scal p)) then Some 0 else unpol f I (attrs_of p) (unpol_at (fp_type p) dim rho mo)).
Proof.
  intros R W. pose proof R as (_ & Ht & Hn & _). rewrite (us_eval d f U I impl p dim rho mo 1 R (or_introl Hn) W).
  unfold total_at, formula_value. rewrite Hn. cbn [Nat.eqb]. rewrite expected_unpol_at by (assumption || eapply name_family; exact Ht). reflexivity.
Qed.
Lemma eval_pol I impl p dim rho mo : record_for impl f d 2 p -> well_formed p rho mo ->
  epsilon_xc I impl p dim rho mo =
    Ok (if Rlt_dec (f_val rho [0%nat] + f_val rho [1%nat]) (dens_threshold (fp_scal p)) then Some 0
        else pol f I (attrs_of p) (pol_at (fp_type p) dim rho mo)).
Proof.
  intros R W. pose proof R as (_ & Ht & Hn & _). rewrite (us_eval d f U I impl p dim rho mo 2 R (or_intror Hn) W).
  unfold total_at, formula_value. rewrite Hn. cbn [Nat.eqb]. rewrite expected_pol_at by (assumption || eapply name_family; exact Ht). reflexivity.
Qed.
Lemma level_of impl n p : record_for impl f d n p -> level_fits (fp_type p) (d_level d) = true.
Proof. intros (_ & Ht & _). apply (us_level d f U _ Ht). Qed.

Theorem number_library : defined_pol d f -> defined_unpol d f -> returns_number d f.
Proof.
  intros Dp Du I impl p dim rho mo HI [[R P]|[R P]].
  - rewrite (eval_unpol I impl p dim rho mo R (proj1 P)).
    destruct (Du I _ _ HI (proj2 (proj2 (proj2 R))) (point_unpol_physical d p dim rho mo (level_of _ _ _ R) P)) as (v & Hv).
    destruct (Rlt_dec _ _); [exists 0; reflexivity|exists v; rewrite Hv; reflexivity].
  - rewrite (eval_pol I impl p dim rho mo R (proj1 P)).
    destruct (Dp I _ _ HI (proj2 (proj2 (proj2 R))) (point_pol_physical d p dim rho mo (level_of _ _ _ R) P)) as (v & Hv).
    destruct (Rlt_dec _ _); [exists 0; reflexivity|exists v; rewrite Hv; reflexivity].
Qed.
Theorem nonpositive_library : nonpositive_pol d f -> nonpositive_unpol d f -> returns_nonpositive d f.
Proof.
  intros Dp Du I impl p dim rho mo HI [[R P]|[R P]].
  - rewrite (eval_unpol I impl p dim rho mo R (proj1 P)).
    destruct (Du I _ _ HI (proj2 (proj2 (proj2 R))) (point_unpol_physical d p dim rho mo (level_of _ _ _ R) P)) as (v & Hv & Hn).
    destruct (Rlt_dec _ _); [exists 0; split; [reflexivity|lra]|exists v; rewrite Hv; split; [reflexivity|exact Hn]].
  - rewrite (eval_pol I impl p dim rho mo R (proj1 P)).
    destruct (Dp I _ _ HI (proj2 (proj2 (proj2 R))) (point_pol_physical d p dim rho mo (level_of _ _ _ R) P)) as (v & Hv & Hn).
    destruct (Rlt_dec _ _); [exists 0; split; [reflexivity|lra]|exists v; rewrite Hv; split; [reflexivity|exact Hn]].
Qed.

Theorem closed_library : closed_shell_exact d f -> closed_shell_library d f.
Proof.
  intros E I impl p p' dim rho rho' mo mo' HI R R' S P W' Hh Ht. pose proof P as (W & _).
  rewrite (eval_unpol I impl p dim rho mo R W), (eval_pol I impl p' dim rho' mo' R' W').
  destruct (Hh 0%nat ltac:(lia)) as (V0 & J0 & H0). destruct (Hh 1%nat ltac:(lia)) as (V1 & J1 & H1).
  assert (T : f_val rho' [0%nat] + f_val rho' [1%nat] = f_val rho []) by lra. rewrite T.
  pose proof S as (St & _ & Ss & _). rewrite <- Ss, <- (attrs_same p p' S), <- St.
  destruct (E I _ _ HI (proj2 (proj2 (proj2 R))) (point_unpol_physical d p dim rho mo (level_of _ _ _ R) P)) as (v & Hv & Hw).
  pose proof (closed_args (fp_type p) dim rho rho' mo mo' Hh Ht) as EQ.
  rewrite EQ. destruct (Rlt_dec _ _); [exists 0; split; reflexivity|exists v; rewrite Hv, Hw; split; reflexivity].
Qed.

Theorem swap_library : spin_symmetric_exact d f -> spin_symmetric_library d f.
Proof.
  intros E I impl p dim rho rho' mo mo' HI R P W' X HT. pose proof P as (W & _).
  rewrite (eval_pol I impl p dim rho mo R W), (eval_pol I impl p dim rho' mo' R W').
  destruct (X 0%nat 1%nat ltac:(lia)) as (V0 & J0 & H0). destruct (X 1%nat 0%nat ltac:(lia)) as (V1 & J1 & H1).
  assert (T : f_val rho' [0%nat] + f_val rho' [1%nat] = f_val rho [0%nat] + f_val rho [1%nat]) by lra. rewrite T.
  destruct (E I _ _ HI (proj2 (proj2 (proj2 R))) (point_pol_physical d p dim rho mo (level_of _ _ _ R) P)) as (v & Hv & Hw).
  pose proof (swap_args (fp_type p) dim rho rho' mo mo' X HT) as EQ.
  rewrite EQ. destruct (Rlt_dec _ _); [exists 0; split; reflexivity|exists v; rewrite Hv, Hw; split; reflexivity].
Qed.

Lemma attr_dens p : attrs_of p "p.dens_threshold"%b = Some (dens_threshold (fp_scal p)). Proof. reflexivity. Qed.
Lemma attr_zeta p : attrs_of p "p.zeta_threshold"%b = Some (zeta_threshold (fp_scal p)). Proof. reflexivity. Qed.
Lemma unscreened_total p rho : 0 < f_val rho [0%nat] -> 0 < f_val rho [1%nat] -> unscreened p rho ->
  ~ f_val rho [0%nat] + f_val rho [1%nat] < dens_threshold (fp_scal p).
Proof. intros H0 H1 [A B]. lra. Qed.
Lemma unscreened_above p t dim rho mo : unscreened p rho -> above_threshold (attrs_of p) (pol_at t dim rho mo).
Proof. intros [A B]. exists (dens_threshold (fp_scal p)). split; [apply attr_dens|split; assumption]. Qed.

Theorem scale_library n : scales_exact n d f -> scales_library n d f.
Proof.
  intros E I impl p dim rho rho' mo mo' g HI R Hg P W' S Ht N N'. pose proof P as (W & Q0 & Q1 & _).
  rewrite (eval_pol I impl p dim rho mo R W), (eval_pol I impl p dim rho' mo' R W').
  destruct (S 0%nat ltac:(lia)) as (V0 & J0 & H0). destruct (S 1%nat ltac:(lia)) as (V1 & J1 & H1).
  pose proof (scaled_args (fp_type p) g dim rho rho' mo mo' S Ht) as EQ.
  assert (P3 : 0 < g ^ 3) by (apply pow_lt, Hg).
  assert (Q0' : 0 < f_val rho' [0%nat]) by (rewrite V0; apply Rmult_lt_0_compat; assumption).
  assert (Q1' : 0 < f_val rho' [1%nat]) by (rewrite V1; apply Rmult_lt_0_compat; assumption).
  destruct (E I _ _ g HI (proj2 (proj2 (proj2 R))) (point_pol_physical d p dim rho mo (level_of _ _ _ R) P) Hg (unscreened_above p _ dim rho mo N)) as (v & Hv & Hw).
  { rewrite <- EQ. apply unscreened_above, N'. }
  destruct (Rlt_dec _ _) as [B|_]; [destruct (unscreened_total p rho Q0 Q1 N B)|].
  destruct (Rlt_dec _ _) as [B|_]; [destruct (unscreened_total p rho' Q0' Q1' N' B)|].
  exists v. rewrite EQ, Hv, Hw. split; reflexivity.
Qed.

Lemma clip p t dim rho mo : unclipped p rho -> not_clipped (attrs_of p) (pol_at t dim rho mo).
Proof. intros H z Hz. rewrite attr_zeta in Hz. injection Hz as <-. exact H. Qed.
Theorem spin_library : spin_scales_exact d f -> spin_scales_library d f.
Proof.
  intros E I impl p p' dim rho up dn mo mo0 mo1 HI R R' S P Wu Wd (Vu & Ju & Hu) (Vd & Jd & Hd) HT N C.
  pose proof P as (W & Q0 & Q1 & _).
  rewrite (eval_pol I impl p dim rho mo R W), (eval_unpol I impl p' dim up mo0 R' Wu), (eval_unpol I impl p' dim dn mo1 R' Wd).
  pose proof S as (St & _ & Ss & _). rewrite <- Ss, <- (attrs_same p p' S), <- St.
  destruct (E I _ _ HI (proj2 (proj2 (proj2 R))) (point_pol_physical d p dim rho mo (level_of _ _ _ R) P) (clip p _ dim rho mo C)) as (e & u & w & He & Hu' & Hw & Heq).
  pose proof (up_args (fp_type p) dim rho up mo mo0 (conj Vu (conj Ju Hu)) (fun K => proj1 (HT K))) as EU.
  pose proof (down_args (fp_type p) dim rho dn mo mo1 (conj Vd (conj Jd Hd)) (fun K => proj2 (HT K))) as ED.
  destruct N as [N0 N1].
  destruct (Rlt_dec _ _) as [B|_]; [lra|]. destruct (Rlt_dec _ _) as [B|_]; [lra|]. destruct (Rlt_dec _ _) as [B|_]; [lra|].
  exists e, u, w. rewrite EU, ED, He, Hu', Hw, Vu, Vd. repeat split. exact Heq.
Qed.

Theorem unif_library e : (forall t, name_to_type (src_name f) = Ok t -> reads_family f t) -> uniform_exact e d f -> uniform_library e d f.
Proof.
  intros RF E I impl p dim rho mo HI R P Hu Ht N C. pose proof P as (W & Q0 & Q1 & _).
  rewrite (eval_pol I impl p dim rho mo R W).
  destruct (Hu 0%nat ltac:(lia)) as (J0 & H0). destruct (Hu 1%nat ltac:(lia)) as (J1 & H1).
  destruct (E I _ (f_val rho [0%nat]) (f_val rho [1%nat]) HI (proj2 (proj2 (proj2 R))) Q0 Q1) as (v & Hv & Hq).
  { exact (clip p (fp_type p) dim rho mo C). }
  { exact (unscreened_above p (fp_type p) dim rho mo N). }
  pose proof (uniform_args (fp_type p) dim rho mo Hu Ht) as EQ.
  destruct (Rlt_dec _ _) as [B|_]; [destruct (unscreened_total p rho Q0 Q1 N B)|].
  exists v. rewrite EQ, (RF _ (proj1 (proj2 R)) I), Hv. split; [reflexivity|exact Hq].
Qed.
End Transfer.

Lemma mem_no x l : mem x l = false -> forall y, mem y l = true -> beqb y x = false.
Proof. intros H y Hy. destruct (beqb y x) eqn:E; [|reflexivity]. apply beqb_eq in E. subst. congruence. Qed.
Theorem reads_family_sound c : inputs_ok c = true -> forall t, name_to_type (src_name (c_src c)) = Ok t -> reads_family (c_src c) t.
Proof.
  intros H t Ht I A a. unfold inputs_ok in H. rewrite Ht in H. apply andb_prop in H. destruct H as [H _].
  rewrite !result_pol. apply result_free. intros x Hx. pose proof (scoped_ok _ _ H x Hx) as O. cbn beta in O. apply orb_prop in O.
  assert (no : forall y, mem x (names_pol t) = true -> mem y (names_pol t) = false -> beqb x y = false) by (intros y Hm Hy; apply (mem_no y _ Hy x Hm)).
  destruct O as [O|O].
  - unfold pol_env. rewrite !attr_arg by (exact O || reflexivity). reflexivity.
  - unfold pol_env. cbn [bind_args restrict p_r0 p_r1 p_s0 p_s1 p_s2 p_l0 p_l1 p_tau0 p_tau1]. unfold upd.
    destruct (name_family _ _ Ht) as [-> | [-> | ->]]; cbn [has_s has_tau] in *; try reflexivity.
    + rewrite !(no "s0"%b), !(no "s1"%b), !(no "s2"%b), !(no "l0"%b), !(no "l1"%b), !(no "tau0"%b), !(no "tau1"%b) by (exact O || reflexivity). reflexivity.
    + rewrite !(no "l0"%b), !(no "l1"%b), !(no "tau0"%b), !(no "tau1"%b) by (exact O || reflexivity). reflexivity.
Qed.
