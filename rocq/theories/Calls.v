(** The refutations of Refute.v and Undefined.v as calls of the returned function: densities and
    orbitals whose arguments are a given rational point, and a record with given parameters. *)
From Coq Require Import Reals ZArith QArith Qreals List Bool Arith Lra Lia.
From Verif Require Import Bytes Syntax Parser PostProcess Src Ast Semantics Free Vec Impl ImplThm ImplThm4 Records RPow
  Families Interval IntervalThm Absint AbsintThm AbsintThm2 AbsintThm3 Defined Problems Exact Inputs Library Callable Refute Undefined Corr.
Import ListNotations.
Open Scope R_scope.

(** ** Statements *)

(** A record of [f] whose parameters have the values [ps]. *)
Definition record_with (impl : modules) (ps : qlist) (f : source) (n : nat) (p : func_p) : Prop := any_record impl f n p /\ has_values ps p.
Definition call_asymmetric (ps : qlist) (f : source) : Prop :=
  exists impl p rho rho' mo mo', record_with impl ps f 2 p /\ well_formed p rho mo /\ well_formed p rho' mo' /\ positive_pol rho /\
  exchanged 3 rho rho' /\ (tau_pol 3 mo' 0 = tau_pol 3 mo 1 /\ tau_pol 3 mo' 1 = tau_pol 3 mo 0) /\
  forall I, ops_ok I -> exists v w,
  epsilon_xc I impl p 3 rho mo = Ok (Some v) /\ epsilon_xc I impl p 3 rho' mo' = Ok (Some w) /\ v <> w.
Definition call_scales_otherwise (n : nat) (ps : qlist) (f : source) : Prop :=
  exists impl p rho rho' mo mo' g, record_with impl ps f 2 p /\ 0 < g /\ well_formed p rho mo /\ well_formed p rho' mo' /\ positive_pol rho /\
  scaled g 3 rho rho' /\ (forall s, (s < 2)%nat -> tau_pol 3 mo' s = g ^ 5 * tau_pol 3 mo s) /\ unscreened p rho /\ unscreened p rho' /\
  forall I, ops_ok I -> exists v w,
  epsilon_xc I impl p 3 rho mo = Ok (Some v) /\ epsilon_xc I impl p 3 rho' mo' = Ok (Some w) /\ w <> g ^ n * v.
Definition call_shell_differs (ps : qlist) (f : source) : Prop :=
  exists impl p p' rho rho' mo mo', record_with impl ps f 1 p /\ record_with impl ps f 2 p' /\ same_functional p p' /\
  well_formed p rho mo /\ well_formed p' rho' mo' /\ 0 < f_val rho [] /\ halves 3 rho rho' /\
  (forall s, (s < 2)%nat -> tau_pol 3 mo' s = tau_unpol 3 mo / 2) /\
  forall I, ops_ok I -> exists v w,
  epsilon_xc I impl p 3 rho mo = Ok (Some v) /\ epsilon_xc I impl p' 3 rho' mo' = Ok (Some w) /\ v <> w.
Definition call_spin_otherwise (ps : qlist) (f : source) : Prop :=
  exists impl p p' rho up dn mo mo0 mo1, record_with impl ps f 2 p /\ record_with impl ps f 1 p' /\ same_functional p p' /\
  well_formed p rho mo /\ well_formed p' up mo0 /\ well_formed p' dn mo1 /\ positive_pol rho /\
  doubled 0 3 rho up /\ doubled 1 3 rho dn /\ (tau_unpol 3 mo0 = 2 * tau_pol 3 mo 0 /\ tau_unpol 3 mo1 = 2 * tau_pol 3 mo 1) /\
  unscreened p rho /\ unclipped p rho /\
  forall I, ops_ok I -> exists e u w, epsilon_xc I impl p 3 rho mo = Ok (Some e) /\
  epsilon_xc I impl p' 3 up mo0 = Ok (Some u) /\ epsilon_xc I impl p' 3 dn mo1 = Ok (Some w) /\
  (f_val rho [0%nat] + f_val rho [1%nat]) * e <> (f_val up [] * u + f_val dn [] * w) / 2.

Definition call_misses_limit (e : R -> R -> R) (ps : qlist) (f : source) : Prop :=
  exists impl p rho mo, record_with impl ps f 2 p /\ well_formed p rho mo /\ positive_pol rho /\ uniform 3 rho /\
  (forall s, (s < 2)%nat -> tau_pol 3 mo s = tf (f_val rho [s])) /\ unscreened p rho /\ unclipped p rho /\
  forall I, ops_ok I -> exists v, epsilon_xc I impl p 3 rho mo = Ok (Some v) /\
  (f_val rho [0%nat] + f_val rho [1%nat]) * v <> e (f_val rho [0%nat]) (f_val rho [1%nat]).
(** No number is returned at positive densities without a gradient, in either spin mode. *)
Definition call_without_value (ps : qlist) (f : source) : Prop :=
  (exists impl p rho mo, record_with impl ps f 2 p /\ well_formed p rho mo /\ positive_pol rho /\ uniform 3 rho /\
     0 < tau_pol 3 mo 0 /\ 0 < tau_pol 3 mo 1 /\ unscreened p rho /\ forall I, ops_ok I -> epsilon_xc I impl p 3 rho mo = Ok None) /\
  (exists impl p rho mo, record_with impl ps f 1 p /\ well_formed p rho mo /\ dens_threshold (fp_scal p) < f_val rho [] /\ 0 < f_val rho [] /\
     (forall i, (i < 3)%nat -> f_jac rho [] i = 0 /\ f_hess rho [] i i = 0) /\ 0 < tau_unpol 3 mo /\
     forall I, ops_ok I -> epsilon_xc I impl p 3 rho mo = Ok None).
(** A number of the other sign. *)
Definition call_with_sign (bad : R -> Prop) (ps : qlist) (f : source) : Prop :=
  exists impl p rho mo, record_with impl ps f 2 p /\ well_formed p rho mo /\ positive_pol rho /\ 0 < tau_pol 3 mo 0 /\ 0 < tau_pol 3 mo 1 /\
  forall I, ops_ok I -> exists v, epsilon_xc I impl p 3 rho mo = Ok (Some v) /\ bad v.

(** These contradict the statements of Callable.v. *)
Lemma swap_contradicts ps f : call_asymmetric ps f -> ~ spin_symmetric_callable f.
Proof.
  intros (impl & p & rho & rho' & mo & mo' & [R _] & W & W' & P & X & T & H) S. destruct (sample_differs H) as (v & w & Hv & Hw & N).
  exact (N (S _ impl p _ _ _ _ _ _ _ R W W' P X (fun _ => T) Hv Hw)).
Qed.
Lemma scale_contradicts n ps f : call_scales_otherwise n ps f -> ~ scales_callable n f.
Proof.
  intros (impl & p & rho & rho' & mo & mo' & g & [R _] & G & W & W' & P & X & T & U & U' & H) S. destruct (sample_differs H) as (v & w & Hv & Hw & N).
  exact (N (S _ impl p _ _ _ _ _ _ _ _ R W W' P G X (fun _ => T) U U' Hv Hw)).
Qed.
Lemma shell_contradicts ps f : call_shell_differs ps f -> ~ closed_shell_callable f.
Proof.
  intros (impl & p & p' & rho & rho' & mo & mo' & [R _] & [R' _] & F & W & W' & P & X & T & H) S. destruct (sample_differs H) as (v & w & Hv & Hw & N).
  exact (N (S _ impl p p' _ _ _ _ _ _ _ R R' F W W' P X (fun _ => T) Hv Hw)).
Qed.
Lemma spin_contradicts ps f : call_spin_otherwise ps f -> ~ spin_scales_callable f.
Proof.
  intros (impl & p & p' & rho & up & dn & mo & mo0 & mo1 & [R _] & [R' _] & F & W & W0 & W1 & P & D0 & D1 & T & U & C & H) S.
  destruct (sample_differs H) as (e & u & w & He & Hu & Hw & N).
  exact (N (S _ impl p p' _ _ _ _ _ _ _ _ _ _ R R' F W W0 W1 P D0 D1 (fun _ => T) U C He Hu Hw)).
Qed.
Lemma limit_contradicts e ps f : call_misses_limit e ps f -> ~ uniform_callable e [] f.
Proof.
  intros (impl & p & rho & mo & [R _] & W & P & X & T & U & C & H) S. destruct (sample_differs H) as (v & Hv & N).
  refine (N (S _ impl p _ _ _ _ R _ W P X (fun _ => T) U C Hv)). intros x q [].
Qed.

(** ** Records *)
Definition calls_ok (ps : qlist) (c : compiled) : bool :=
  match name_to_type (src_name (c_src c)) with
  | Ok t => forallb (fun e => bprefix params_dot (fst e) || among scalar_names (fst e)) ps && q_zeta ps &&
      library_ok (any_domain (level_of_type t) ps) c && (match qlook ps "p.dens_threshold" with Some _ => true | None => false end) &&
      negb (beqb (src_name (c_src c)) "") && negb (beqb (src_name (c_src c)) DEORBITALIZE)
  | Err _ => false
  end.
Definition with_spin (n : nat) (p : func_p) : func_p :=
  FuncP (fp_name p) (fp_type p) n (fp_maple p) (fp_scal p) (fp_params p) (fp_aux p) (fp_mix p).
Definition call_record (t : bstr) (ps : qlist) (f : source) (n : nat) : func_p := with_spin n (value_record f t ps).
(** What is known of such a record. *)
Record ready_record (t : bstr) (ps : qlist) (c : compiled) : Prop := {
  rr_type : name_to_type (src_name (c_src c)) = Ok t;
  rr_with : forall n, record_with (own_module (c_src c)) ps (c_src c) n (call_record t ps (c_src c) n);
  rr_for : forall n, record_for (own_module (c_src c)) (c_src c) (any_domain (level_of_type t) ps) n (call_record t ps (c_src c) n);
  rr_usable : usable (any_domain (level_of_type t) ps) (c_src c);
  rr_inputs : inputs_ok c = true;
  rr_dens : exists d, qlook ps "p.dens_threshold" = Some d }.
Lemma calls_ready ps c : calls_ok ps c = true -> exists t, ready_record t ps c.
Proof.
  unfold calls_ok. destruct (name_to_type (src_name (c_src c))) as [t|] eqn:T; [|discriminate]. intros H. exists t.
  apply andb_prop in H. destruct H as [H N2]. apply andb_prop in H. destruct H as [H N1]. apply andb_prop in H. destruct H as [H D].
  apply andb_prop in H. destruct H as [H L]. apply andb_prop in H. destruct H as [P Z]. apply negb_true_iff in N1, N2.
  destruct (qlook ps "p.dens_threshold") as [d|] eqn:Ed; [|discriminate].
  assert (HV : forall n, has_values ps (call_record t ps (c_src c) n)) by (intros n x q Hx; exact (record_values (c_src c) t ps P x q Hx)).
  assert (Sg : forall n, single (own_module (c_src c)) (call_record t ps (c_src c) n) (c_src c)).
  { intros n. split; [|split].
    - intros X. change (src_name (c_src c) = ""%b) in X. rewrite X in N1. discriminate.
    - intros X. change (src_name (c_src c) = DEORBITALIZE) in X. rewrite X in N2. discriminate.
    - unfold own_module. change (fp_maple (call_record t ps (c_src c) n)) with (src_name (c_src c)). rewrite (proj2 (beqb_eq _ _) eq_refl). reflexivity. }
  assert (Zo : forall n, zeta_ok (attrs_of (call_record t ps (c_src c) n))).
  { intros n. destruct (q_zeta_ok _ Z) as (z & Hz & B). unfold qget in Hz. destruct (qlook ps "p.zeta_threshold") as [q|] eqn:Eq; [|discriminate].
    exists z. split; [rewrite (HV n _ _ Eq); exact Hz|exact B]. }
  split.
  - exact T.
  - intros n. split; [|exact (HV n)]. split; [exact (Sg n)|]. split; [exact T|]. split; [reflexivity|].
    destruct (Zo n) as (z & Hz & B). change (attrs_of (call_record t ps (c_src c) n) "p.zeta_threshold"%b) with (Some (zeta_threshold (fp_scal (call_record t ps (c_src c) n)))) in Hz.
    injection Hz as <-. exact B.
  - intros n. split; [exact (Sg n)|]. split; [exact T|]. split; [reflexivity|]. split; [exact (Zo n)|]. split; [exists (Q2R d); exact (HV n _ _ Ed)|].
    intros x s Hx. cbn [d_pars any_domain] in Hx. apply in_map_iff in Hx. destruct Hx as (e & Ee & He). injection Ee as <- <-.
    assert (X : exists q, qlook ps (fst e) = Some q).
    { clear - He. induction ps as [|[y q] l IH]; [destruct He|]. cbn [qlook]. destruct (beqb (fst e) y) eqn:B; [eexists; reflexivity|].
      destruct He as [<-|He]; [cbn [fst] in B; rewrite (proj2 (beqb_eq _ _) eq_refl) in B; discriminate|exact (IH He)]. }
    destruct X as (q & Hq). exists (Q2R q). split; [exact (HV n _ _ Hq)|exact Logic.I].
  - exact (library_sound _ _ L).
  - unfold library_ok in L. repeat (apply andb_prop in L; destruct L as [L _]). exact L.
  - exists d. exact Ed.
Qed.

(** ** Fields with given arguments *)
Definition first_grad (xs : qlist) : vec := vec3 (sqrt (qval xs "s0")) 0.
Definition second_grad (xs : qlist) : vec :=
  vec3 (qval xs "s1" / sqrt (qval xs "s0")) (sqrt (qval xs "s2" - qval xs "s1" * qval xs "s1" / qval xs "s0")).
Definition flat_hess (l : R) (i j : nat) : R := match i with 0%nat => l | _ => 0 end.
Definition point_rho (xs : qlist) : field R :=
  Field [2%nat] (at_spin (qval xs "r0") (qval xs "r1")) (at_spin (first_grad xs) (second_grad xs))
    (at_spin (flat_hess (qval xs "l0")) (flat_hess (qval xs "l1"))).
(** One orbital with a gradient along the first axis. *)
Definition wave (tau : R) (i : nat) : complex := (vec3 (sqrt (2 * tau)) 0 i, 0).
Definition orbitals (tau0 tau1 : R) : field complex :=
  Field [2%nat; 1%nat] (fun _ => (0, 0)) (at_spin (wave tau0) (wave tau1)) (fun _ _ _ => (0, 0)).
Definition orbital (tau : R) : field complex := Field [1%nat] (fun _ => (0, 0)) (fun _ => wave tau) (fun _ _ _ => (0, 0)).
Definition point_mo (xs : qlist) : field complex := orbitals (qval xs "tau0") (qval xs "tau1").
(** The arguments are all given, the gradients obey the inequality of Cauchy and Schwarz. *)
Definition has_all (l : list bstr) (xs : qlist) : bool := forallb (fun x => match qlook xs x with Some _ => true | None => false end) l.
Definition given_pol (xs : qlist) : bool :=
  has_all ["r0"; "r1"; "s0"; "s1"; "s2"; "l0"; "l1"; "tau0"; "tau1"]%b xs && q_pol_ok xs && q_nonneg xs "tau0" && q_nonneg xs "tau1" &&
  match qlook xs "s0", qlook xs "s1", qlook xs "s2" with Some a, Some b, Some c => Qle_bool (b * b) (a * c) | _, _, _ => false end.

Lemma tau_wave tau : 0 <= tau -> rsum 3 (fun i => conj_re (wave tau i)) / 2 = tau.
Proof.
  intros H. cbn [rsum]. unfold conj_re, wave. cbn [fst snd vec3]. pose proof (sqrt_sqrt (2 * tau) ltac:(lra)) as S. lra.
Qed.
Lemma tau_orbitals a b s : 0 <= a -> 0 <= b -> (s < 2)%nat -> tau_pol 3 (Some (orbitals a b)) s = at_spin a b [s].
Proof.
  intros A B Hs. unfold tau_pol, orbital_tau, orbitals. cbn [f_shape nth f_jac].
  replace (rsum 1 (fun n => rsum 3 (fun i => conj_re (at_spin (wave a) (wave b) [s; n] i)))) with (rsum 3 (fun i => conj_re (at_spin (wave a) (wave b) [s] i))).
  - destruct s as [|[|s]]; [| |lia]; cbn [at_spin]; apply tau_wave; assumption.
  - cbn [rsum]. destruct s as [|[|s]]; cbn [at_spin]; lra.
Qed.
Lemma tau_orbital a : 0 <= a -> tau_unpol 3 (Some (orbital a)) = a.
Proof.
  intros A. unfold tau_unpol, orbital_tau, orbital. cbn [f_shape nth f_jac].
  replace (rsum 1 (fun n => rsum 3 (fun i => conj_re (wave a i)))) with (rsum 3 (fun i => conj_re (wave a i))) by (cbn [rsum]; lra).
  apply tau_wave, A.
Qed.
Lemma has_all_val l xs x : has_all l xs = true -> In x l -> qget xs x = Some (qval xs x).
Proof.
  intros H Hx. unfold has_all in H. rewrite forallb_forall in H. specialize (H x Hx). unfold qval, qget.
  destruct (qlook xs x); [reflexivity|discriminate].
Qed.
Lemma grads_ok a b c : 0 <= a -> 0 <= c -> b * b <= a * c ->
  let g := vec3 (sqrt a) 0 in let h := vec3 (b / sqrt a) (sqrt (c - b * b / a)) in
  dot 3 g g = a /\ dot 3 g h = b /\ dot 3 h h = c.
Proof.
  intros A C B g h. rewrite !dot3. unfold g, h. cbn [vec3]. pose proof (sqrt_sqrt a A) as SA.
  destruct (Req_dec a 0) as [Z|Z].
  - subst a. assert (Hb : b = 0) by nra. subst b. rewrite sqrt_0. unfold Rdiv. rewrite !Rmult_0_l, Rminus_0_r. pose proof (sqrt_sqrt c C). lra.
  - assert (P : 0 < a) by lra. assert (Q : sqrt a <> 0) by (intros E; rewrite E in SA; lra).
    assert (M : 0 <= c - b * b / a).
    { apply (Rmult_le_reg_r a); [exact P|]. unfold Rdiv. rewrite Rmult_minus_distr_r, Rmult_assoc, Rinv_l by lra. lra. }
    pose proof (sqrt_sqrt _ M) as SM. split; [lra|]. split; [field; exact Q|].
    replace (b / sqrt a * (b / sqrt a)) with (b * b / a) by (rewrite <- SA at 1; field; exact Q). lra.
Qed.
Record given (xs : qlist) : Prop := {
  gv_names : has_all ["r0"; "r1"; "s0"; "s1"; "s2"; "l0"; "l1"; "tau0"; "tau1"]%b xs = true;
  gv_r0 : 0 < qval xs "r0"; gv_r1 : 0 < qval xs "r1"; gv_t0 : 0 <= qval xs "tau0"; gv_t1 : 0 <= qval xs "tau1";
  gv_s0 : dot 3 (first_grad xs) (first_grad xs) = qval xs "s0";
  gv_s1 : dot 3 (first_grad xs) (second_grad xs) = qval xs "s1";
  gv_s2 : dot 3 (second_grad xs) (second_grad xs) = qval xs "s2" }.
Lemma q_nonneg_val xs x : q_nonneg xs x = true -> 0 <= qval xs x.
Proof.
  unfold q_nonneg, qval, qget. destruct (qlook xs x) as [q|]; cbn [option_map]; [|lra]. intros H. apply qle_ok in H. rewrite RPow.Q2R_0 in H. exact H.
Qed.
Lemma given_ok xs : given_pol xs = true -> given xs.
Proof.
  unfold given_pol. intros H. apply andb_prop in H. destruct H as [H S]. apply andb_prop in H. destruct H as [H T1]. apply andb_prop in H. destruct H as [H T0].
  apply andb_prop in H. destruct H as [N P]. unfold q_pol_ok in P. apply andb_prop in P. destruct P as [P S2]. apply andb_prop in P. destruct P as [P S0].
  apply andb_prop in P. destruct P as [R0 R1]. apply q_nonneg_val in T0, T1, S0, S2. apply q_pos_ok in R0, R1.
  assert (B : qval xs "s1" * qval xs "s1" <= qval xs "s0" * qval xs "s2").
  { unfold qval, qget. destruct (qlook xs "s0"); [|discriminate]. destruct (qlook xs "s1"); [|discriminate]. destruct (qlook xs "s2"); [|discriminate].
    cbn [option_map]. apply qle_ok in S. rewrite !Q2R_mult in S. exact S. }
  destruct (grads_ok _ _ _ S0 S2 B) as (G0 & G1 & G2). split; assumption.
Qed.
Lemma lap_flat rho ix l : (forall i j, f_hess rho ix i j = flat_hess l i j) -> lap 3 rho ix = l.
Proof. intros H. unfold lap. cbn [rsum]. rewrite !H. cbn [flat_hess]. lra. Qed.
Lemma point_args t xs : given xs -> pol_at t 3 (point_rho xs) (Some (point_mo xs)) = restrict t (q_pol xs).
Proof.
  intros [N _ _ T0 T1 S0 S1 S2]. unfold pol_at, restrict, q_pol, point_mo. cbn [p_r0 p_r1 p_s0 p_s1 p_s2 p_l0 p_l1 p_tau0 p_tau1].
  rewrite !tau_orbitals by (assumption || lia). rewrite (lap_flat _ _ (qval xs "l0")), (lap_flat _ _ (qval xs "l1")) by reflexivity.
  cbn [f_val f_jac point_rho at_spin]. rewrite S0, S1, S2.
  rewrite (has_all_val _ _ "s0"%b N), (has_all_val _ _ "s1"%b N), (has_all_val _ _ "s2"%b N), (has_all_val _ _ "l0"%b N), (has_all_val _ _ "l1"%b N),
    (has_all_val _ _ "tau0"%b N), (has_all_val _ _ "tau1"%b N) by (cbn [In]; tauto). reflexivity.
Qed.
Definition point_rho_unpol (xs : qlist) : field R :=
  Field [] (fun _ => qval xs "r0") (fun _ => first_grad xs) (fun _ => flat_hess (qval xs "l0")).
Definition names_unpol_of (t : bstr) : list bstr :=
  "r0"%b :: (if has_s t then ["s0"%b] else []) ++ (if has_tau t then ["l0"; "tau0"]%b else []).
Definition given_unpol (t : bstr) (xs : qlist) : bool := has_all (names_unpol_of t) xs && q_pos xs "r0" && q_nonneg xs "s0" && q_nonneg xs "tau0".
Definition restrict_unpol (t : bstr) (u : unpol_args) : unpol_args := {|
  u_r := u_r u; u_s := if has_s t then u_s u else None; u_l := if has_tau t then u_l u else None; u_tau := if has_tau t then u_tau u else None |}.
Lemma point_args_unpol t xs : family t -> has_all (names_unpol_of t) xs = true -> q_nonneg xs "s0" = true -> q_nonneg xs "tau0" = true ->
  unpol_at t 3 (point_rho_unpol xs) (Some (orbital (qval xs "tau0"))) = restrict_unpol t (q_unpol xs).
Proof.
  intros F N S T. apply q_nonneg_val in S, T. unfold unpol_at, restrict_unpol, q_unpol. cbn [u_r u_s u_l u_tau].
  rewrite tau_orbital by exact T. rewrite (lap_flat _ _ (qval xs "l0")) by reflexivity. cbn [f_val f_jac point_rho_unpol].
  assert (G : dot 3 (first_grad xs) (first_grad xs) = qval xs "s0").
  { rewrite dot3. unfold first_grad. cbn [vec3]. pose proof (sqrt_sqrt _ S). lra. }
  rewrite G. destruct F as [-> | [-> | ->]]; cbn [has_s has_tau beqb negb when names_unpol_of app] in *; [reflexivity| |].
  - rewrite (has_all_val _ _ "s0"%b N) by (cbn; tauto). reflexivity.
  - rewrite (has_all_val _ _ "s0"%b N), (has_all_val _ _ "l0"%b N), (has_all_val _ _ "tau0"%b N) by (cbn; tauto). reflexivity.
Qed.
Lemma reads_family_unpol c t I A u : inputs_ok c = true -> name_to_type (src_name (c_src c)) = Ok t ->
  unpol (c_src c) I A (restrict_unpol t u) = unpol (c_src c) I A u.
Proof.
  intros H Ht. unfold inputs_ok in H. rewrite Ht in H. apply andb_prop in H. destruct H as [_ H].
  rewrite !result_unpol. apply result_free. intros x Hx. pose proof (scoped_ok _ _ H x Hx) as O. cbn beta in O. apply orb_prop in O.
  assert (no : forall y, mem x (names_unpol t) = true -> mem y (names_unpol t) = false -> beqb x y = false) by (intros y Hm Hy; apply (mem_no y _ Hy x Hm)).
  destruct O as [O|O].
  - unfold unpol_env. rewrite !attr_arg by (exact O || reflexivity). reflexivity.
  - unfold unpol_env. cbn [bind_args restrict_unpol u_r u_s u_l u_tau]. unfold upd.
    destruct (name_family _ _ Ht) as [-> | [-> | ->]]; cbn [has_s has_tau] in *; try reflexivity.
    + rewrite !(no "s0"%b), !(no "l0"%b), !(no "tau0"%b) by (exact O || reflexivity). reflexivity.
    + rewrite !(no "l0"%b), !(no "tau0"%b) by (exact O || reflexivity). reflexivity.
Qed.

(** ** Calls *)
Local Notation rec t ps c n := (call_record t ps (c_src c) n).
Lemma wf_pol t ps c rho mo N : f_shape rho = [2%nat] -> f_shape mo = [2%nat; N] -> well_formed (rec t ps c 2) rho (Some mo).
Proof. intros S M. split; [discriminate|]. split; [intros _; exact S|]. intros _. exists mo. split; [reflexivity|]. split; [discriminate|]. intros _. exists N. exact M. Qed.
Lemma wf_unpol t ps c rho mo N : f_shape rho = [] -> f_shape mo = [N] -> well_formed (rec t ps c 1) rho (Some mo).
Proof. intros S M. split; [intros _; exact S|]. split; [discriminate|]. intros _. exists mo. split; [reflexivity|]. split; [|discriminate]. intros _. exists N. exact M. Qed.
Lemma rec_same t ps c : same_functional (rec t ps c 1) (rec t ps c 2). Proof. repeat split. Qed.
Section Ready.
Context {t : bstr} {ps : qlist} {c : compiled} (RR : ready_record t ps c).
Lemma rec_values n x q : qlook ps x = Some q -> attrs_of (rec t ps c n) x = Some (Q2R q).
Proof. exact (proj2 (rr_with _ _ _ RR n) x q). Qed.
Lemma call_pol I rho mo a : well_formed (rec t ps c 2) rho mo -> pol_at t 3 rho mo = restrict t a ->
  qval ps "p.dens_threshold" <= f_val rho [0%nat] + f_val rho [1%nat] ->
  epsilon_xc I (own_module (c_src c)) (rec t ps c 2) 3 rho mo = Ok (pol (c_src c) I (attrs_of (rec t ps c 2)) a).
Proof.
  intros W E D. rewrite (eval_pol _ _ (rr_usable _ _ _ RR) I _ _ 3 _ _ (rr_for _ _ _ RR 2) W).
  change (dens_threshold (fp_scal (call_record t ps (c_src c) 2))) with (qval ps "p.dens_threshold").
  destruct (Rlt_dec _ _) as [X|X]; [exfalso; lra|]. change (fp_type (call_record t ps (c_src c) 2)) with t. rewrite E.
  rewrite (reads_family_sound c (rr_inputs _ _ _ RR) t (rr_type _ _ _ RR) I). reflexivity.
Qed.
Lemma call_unpol I rho mo u : well_formed (rec t ps c 1) rho mo -> unpol_at t 3 rho mo = restrict_unpol t u ->
  qval ps "p.dens_threshold" <= f_val rho [] ->
  epsilon_xc I (own_module (c_src c)) (rec t ps c 1) 3 rho mo = Ok (unpol (c_src c) I (attrs_of (rec t ps c 1)) u).
Proof.
  intros W E D. rewrite (eval_unpol _ _ (rr_usable _ _ _ RR) I _ _ 3 _ _ (rr_for _ _ _ RR 1) W).
  change (dens_threshold (fp_scal (call_record t ps (c_src c) 1))) with (qval ps "p.dens_threshold").
  destruct (Rlt_dec _ _) as [X|X]; [exfalso; lra|]. change (fp_type (call_record t ps (c_src c) 1)) with t. rewrite E.
  rewrite (reads_family_unpol c t I _ _ (rr_inputs _ _ _ RR) (rr_type _ _ _ RR)). reflexivity.
Qed.
End Ready.
Definition q_total (ps xs : qlist) : bool :=
  match qlook ps "p.dens_threshold", qlook xs "r0", qlook xs "r1" with Some d, Some a, Some b => Qle_bool d (a + b) | _, _, _ => false end.
Lemma q_total_ok ps xs : q_total ps xs = true -> qval ps "p.dens_threshold" <= qval xs "r0" + qval xs "r1".
Proof.
  unfold q_total, qval, qget. destruct (qlook ps "p.dens_threshold"); [|discriminate]. destruct (qlook xs "r0"); [|discriminate]. destruct (qlook xs "r1"); [|discriminate].
  intros H. apply qle_ok in H. rewrite Q2R_plus in H. exact H.
Qed.
Lemma above_val ps xs : q_above ps xs = true -> qval ps "p.dens_threshold" < qval xs "r0" /\ qval ps "p.dens_threshold" < qval xs "r1".
Proof.
  intros H. destruct (q_above_ok _ _ H) as (d & E & A & B). cbn [q_pol p_r0 p_r1] in A, B. unfold qval at 1 3. rewrite E. split; assumption.
Qed.
Lemma swap_restrict t a : swap_spins (restrict t a) = restrict t (swap_spins a).
Proof. unfold swap_spins, restrict. cbn [p_r0 p_r1 p_s0 p_s1 p_s2 p_l0 p_l1 p_tau0 p_tau1]. destruct (has_s t), (has_tau t); reflexivity. Qed.
Lemma scale_restrict t g a : scale_args g (restrict t a) = restrict t (scale_args g a).
Proof. unfold scale_args, restrict. cbn [p_r0 p_r1 p_s0 p_s1 p_s2 p_l0 p_l1 p_tau0 p_tau1]. destruct (has_s t), (has_tau t); reflexivity. Qed.
Lemma closed_restrict t u : closed_shell (restrict_unpol t u) = restrict t (closed_shell u).
Proof. unfold closed_shell, restrict, restrict_unpol. cbn [p_r0 p_r1 p_s0 p_s1 p_s2 p_l0 p_l1 p_tau0 p_tau1 u_r u_s u_l u_tau]. destruct (has_s t), (has_tau t); reflexivity. Qed.
Lemma up_restrict t a : spin_up (restrict t a) = restrict_unpol t (spin_up a).
Proof. unfold spin_up, restrict, restrict_unpol. cbn [p_r0 p_s0 p_l0 p_tau0 u_r u_s u_l u_tau]. destruct (has_s t), (has_tau t); reflexivity. Qed.
Lemma down_restrict t a : spin_down (restrict t a) = restrict_unpol t (spin_down a).
Proof. unfold spin_down, restrict, restrict_unpol. cbn [p_r1 p_s2 p_l1 p_tau1 u_r u_s u_l u_tau]. destruct (has_s t), (has_tau t); reflexivity. Qed.

(** Fields derived from the fields of a point. *)
Definition exchange_rho (rho : field R) : field R :=
  Field [2%nat] (at_spin (f_val rho [1%nat]) (f_val rho [0%nat])) (at_spin (f_jac rho [1%nat]) (f_jac rho [0%nat])) (at_spin (f_hess rho [1%nat]) (f_hess rho [0%nat])).
Definition scale_rho (g : R) (rho : field R) : field R :=
  Field [2%nat] (fun ix => g ^ 3 * f_val rho ix) (fun ix i => g ^ 4 * f_jac rho ix i) (fun ix i j => g ^ 5 * f_hess rho ix i j).
Definition halve_rho (rho : field R) : field R :=
  Field [2%nat] (fun _ => f_val rho [] / 2) (fun _ i => f_jac rho [] i / 2) (fun _ i j => f_hess rho [] i j / 2).
Definition double_rho (s : nat) (rho : field R) : field R :=
  Field [] (fun _ => 2 * f_val rho [s]) (fun _ i => 2 * f_jac rho [s] i) (fun _ i j => 2 * f_hess rho [s] i j).
Lemma exchange_ok rho : exchanged 3 rho (exchange_rho rho).
Proof. intros s u [[-> ->]|[-> ->]]; repeat split. Qed.
Lemma scale_ok g rho : scaled g 3 rho (scale_rho g rho). Proof. intros s _. repeat split. Qed.
Lemma halve_ok rho : halves 3 rho (halve_rho rho). Proof. intros s _. repeat split. Qed.
Lemma double_ok s rho : doubled s 3 rho (double_rho s rho). Proof. repeat split. Qed.

Section Sound.
Context {prc : setting} {pik : pi_known}.
Lemma at_unpol_values ps xs c i I A : at_unpol ps xs c = Some i -> ops_ok I -> (forall x q, qlook ps x = Some q -> A x = Some (Q2R q)) ->
  exists v, unpol (c_src c) I A (q_unpol xs) = Some v /\ inside i v.
Proof.
  intros H HI HA. unfold at_unpol in H. destruct (_ && _ && _) eqn:E in H; [|discriminate].
  apply andb_prop in E. destruct E as [E Es]. apply andb_prop in E. destruct E as [Ep Ex]. rewrite result_unpol.
  refine (shown_ok I HI [1] headed1 [SPos] sorts1 _ _ _ _ _ Es H). apply point_env_ok.
  intros x q Hq. pose proof (unpol_point_env ps xs Ep Ex x q Hq) as G. rewrite qlook_app in Hq. destruct (qlook ps x) as [q'|] eqn:Eq.
  - injection Hq as ->. rewrite unpol_attr by exact (name_at _ _ _ Ep Eq). rewrite (HA _ _ Eq). reflexivity.
  - pose proof (arg_at _ _ _ _ Ex Hq) as N. unfold unpol_names in N. cbn [In] in N.
    repeat destruct N as [N|N]; try contradiction; subst x; exact G.
Qed.

(** The point can be made a call. *)
Definition callable_point (ps xs : qlist) (c : compiled) : bool := calls_ok ps c && given_pol xs && q_total ps xs.
Lemma callable_point_ok ps xs c : callable_point ps xs c = true ->
  (exists t, ready_record t ps c) /\ given xs /\ qval ps "p.dens_threshold" <= qval xs "r0" + qval xs "r1".
Proof.
  intros H. apply andb_prop in H. destruct H as [H T]. apply andb_prop in H. destruct H as [C G].
  split; [exact (calls_ready _ _ C)|]. split; [exact (given_ok _ G)|exact (q_total_ok _ _ T)].
Qed.
Theorem call_swap_sound ps xs c : callable_point ps xs c = true -> refute_swap ps xs c = true -> call_asymmetric ps (c_src c).
Proof.
  intros H K. destruct (callable_point_ok _ _ _ H) as ((t & RR) & G & D).
  unfold refute_swap in K. apply andb_prop in K. destruct K as [_ Ha].
  destruct (at_pol ps xs c) as [i|] eqn:E1; [|discriminate]. destruct (at_pol ps (rename to_swapped xs) c) as [j|] eqn:E2; [|discriminate].
  set (rho := point_rho xs). set (mo := Some (point_mo xs)). set (rho' := exchange_rho rho). set (mo' := Some (orbitals (qval xs "tau1") (qval xs "tau0"))).
  pose proof G as [_ R0 R1 T0 T1 _ _ _].
  assert (W : well_formed (rec t ps c 2) rho mo) by (apply (wf_pol _ _ _ _ _ 1); reflexivity).
  assert (W' : well_formed (rec t ps c 2) rho' mo') by (apply (wf_pol _ _ _ _ _ 1); reflexivity).
  assert (T : tau_pol 3 mo' 0 = tau_pol 3 mo 1 /\ tau_pol 3 mo' 1 = tau_pol 3 mo 0).
  { unfold mo, mo', point_mo. rewrite !tau_orbitals by (assumption || lia). split; reflexivity. }
  exists (own_module (c_src c)), (rec t ps c 2), rho, rho', mo, mo'.
  split; [exact (rr_with _ _ _ RR 2)|]. split; [exact W|]. split; [exact W'|]. split; [exact (conj R0 R1)|]. split; [apply exchange_ok|]. split; [exact T|].
  intros I HI. destruct (at_pol_values _ _ _ _ I (attrs_of (rec t ps c 2)) E1 HI (rec_values RR 2)) as (v & Hv & Iv).
  destruct (at_pol_values _ _ _ _ I (attrs_of (rec t ps c 2)) E2 HI (rec_values RR 2)) as (w & Hw & Iw).
  exists v, w. split; [|split; [|exact (apart_ok _ _ _ _ Ha Iv Iw)]].
  - rewrite (call_pol RR I rho mo (q_pol xs) W (point_args t xs G) D), Hv. reflexivity.
  - rewrite (call_pol RR I rho' mo' (q_pol (rename to_swapped xs)) W'), Hw; [reflexivity| |].
    + rewrite (swap_args t 3 rho rho' mo mo' (exchange_ok rho) (fun _ => T)), (point_args t xs G : pol_at t 3 rho mo = _), swap_restrict, swapped_point. reflexivity.
    + cbn. lra.
Qed.
Theorem call_scale_sound n g ps xs c : callable_point ps xs c = true -> refute_scale n g ps xs c = true -> call_scales_otherwise n ps (c_src c).
Proof.
  intros H K. destruct (callable_point_ok _ _ _ H) as ((t & RR) & G & D).
  unfold refute_scale in K. apply andb_prop in K. destruct K as [K Ha]. apply andb_prop in K. destruct K as [K H2]. apply andb_prop in K. destruct K as [K H1].
  apply andb_prop in K. destruct K as [_ Hg]. apply qlt_ok in Hg. rewrite RPow.Q2R_0 in Hg. apply above_val in H1, H2.
  destruct (at_pol ps xs c) as [i|] eqn:E1; [|destruct (at_pol ps (rename (to_scaled g) xs) c); discriminate].
  destruct (at_pol ps (rename (to_scaled g) xs) c) as [j|] eqn:E2; [|discriminate].
  set (rho := point_rho xs). set (mo := Some (point_mo xs)). set (rho' := scale_rho (Q2R g) rho).
  set (mo' := Some (orbitals (Q2R g ^ 5 * qval xs "tau0") (Q2R g ^ 5 * qval xs "tau1"))).
  pose proof G as [_ R0 R1 T0 T1 _ _ _].
  assert (P5 : 0 < Q2R g ^ 5) by (apply pow_lt, Hg).
  assert (V : forall x, In x ["r0"; "r1"]%b -> qval (rename (to_scaled g) xs) x = Q2R g ^ 3 * qval xs x).
  { intros x [<-|[<-|[]]]; [exact (f_equal p_r0 (scaled_point g xs))|exact (f_equal p_r1 (scaled_point g xs))]. }
  rewrite (V "r0"%b), (V "r1"%b) in H2 by (cbn; tauto).
  assert (W : well_formed (rec t ps c 2) rho mo) by (apply (wf_pol _ _ _ _ _ 1); reflexivity).
  assert (W' : well_formed (rec t ps c 2) rho' mo') by (apply (wf_pol _ _ _ _ _ 1); reflexivity).
  assert (T : forall s, (s < 2)%nat -> tau_pol 3 mo' s = Q2R g ^ 5 * tau_pol 3 mo s).
  { intros s Hs. unfold mo, mo', point_mo. rewrite !tau_orbitals by (assumption || (apply Rmult_le_pos; lra)).
    destruct s as [|[|s]]; [reflexivity|reflexivity|lia]. }
  exists (own_module (c_src c)), (rec t ps c 2), rho, rho', mo, mo', (Q2R g).
  split; [exact (rr_with _ _ _ RR 2)|]. split; [exact Hg|]. split; [exact W|]. split; [exact W'|]. split; [exact (conj R0 R1)|].
  split; [apply scale_ok|]. split; [exact T|]. split; [exact H1|]. split; [exact H2|].
  intros I HI. destruct (at_pol_values _ _ _ _ I (attrs_of (rec t ps c 2)) E1 HI (rec_values RR 2)) as (v & Hv & Iv).
  destruct (at_pol_values _ _ _ _ I (attrs_of (rec t ps c 2)) E2 HI (rec_values RR 2)) as (w & Hw & Iw).
  exists v, w. split; [|split].
  - rewrite (call_pol RR I rho mo (q_pol xs) W (point_args t xs G) D), Hv. reflexivity.
  - rewrite (call_pol RR I rho' mo' (q_pol (rename (to_scaled g) xs)) W'), Hw; [reflexivity| |].
    + rewrite (scaled_args t (Q2R g) 3 rho rho' mo mo' (scale_ok _ rho) (fun _ => T)), (point_args t xs G : pol_at t 3 rho mo = _), scale_restrict, scaled_point. reflexivity.
    + change (qval ps "p.dens_threshold" <= Q2R g ^ 3 * qval xs "r0" + Q2R g ^ 3 * qval xs "r1").
      assert (0 < Q2R g ^ 3 * qval xs "r0") by (apply Rmult_lt_0_compat; [apply pow_lt, Hg|exact R0]). lra.
  - rewrite <- pow_n. cbn [times option_map] in Ha. exact (apart_ok _ _ _ _ Ha Iw (imul_ok _ _ _ _ (of_Q_ok _) Iv)).
Qed.
Theorem call_spin_sound ps xs c : callable_point ps xs c = true -> refute_spin ps xs c = true -> call_spin_otherwise ps (c_src c).
Proof.
  intros H K. destruct (callable_point_ok _ _ _ H) as ((t & RR) & G & D).
  unfold refute_spin in K. apply andb_prop in K. destruct K as [K Ha]. apply andb_prop in K. destruct K as [K Hu]. apply andb_prop in K. destruct K as [K _].
  apply andb_prop in K. destruct K as [Hz Hd]. apply above_val in Hd.
  destruct (qlook xs "r0") as [a|] eqn:A; [|discriminate]. destruct (qlook xs "r1") as [b|] eqn:B; [|discriminate].
  destruct (at_pol ps xs c) as [i|] eqn:E1; [|discriminate].
  destruct (at_unpol ps (rename to_up xs) c) as [j|] eqn:E2; [|discriminate]. destruct (at_unpol ps (rename to_down xs) c) as [k|] eqn:E3; [|discriminate].
  set (rho := point_rho xs). set (mo := Some (point_mo xs)). set (up := double_rho 0 rho). set (dn := double_rho 1 rho).
  set (mo0 := Some (orbital (2 * qval xs "tau0"))). set (mo1 := Some (orbital (2 * qval xs "tau1"))).
  pose proof G as [_ R0 R1 T0 T1 _ _ _].
  assert (W : well_formed (rec t ps c 2) rho mo) by (apply (wf_pol _ _ _ _ _ 1); reflexivity).
  assert (W0 : well_formed (rec t ps c 1) up mo0) by (apply (wf_unpol _ _ _ _ _ 1); reflexivity).
  assert (W1 : well_formed (rec t ps c 1) dn mo1) by (apply (wf_unpol _ _ _ _ _ 1); reflexivity).
  assert (T : tau_unpol 3 mo0 = 2 * tau_pol 3 mo 0 /\ tau_unpol 3 mo1 = 2 * tau_pol 3 mo 1).
  { unfold mo, mo0, mo1, point_mo. rewrite !tau_orbitals, !tau_orbital by (assumption || lia || lra). split; reflexivity. }
  exists (own_module (c_src c)), (rec t ps c 2), (rec t ps c 1), rho, up, dn, mo, mo0, mo1.
  split; [exact (rr_with _ _ _ RR 2)|]. split; [exact (rr_with _ _ _ RR 1)|]. split; [repeat split|]. split; [exact W|]. split; [exact W0|]. split; [exact W1|].
  split; [exact (conj R0 R1)|]. split; [apply double_ok|]. split; [apply double_ok|]. split; [exact T|]. split; [exact Hd|].
  split.
  { pose proof (q_unclipped_ok _ _ Hu) as C. unfold not_clipped in C. destruct (q_zeta_ok _ Hz) as (z & Ez & _). specialize (C z Ez). cbn [q_pol p_r0 p_r1] in C.
    unfold unclipped. change (zeta_threshold (fp_scal (rec t ps c 2))) with (qval ps "p.zeta_threshold"). 
    replace (qval ps "p.zeta_threshold") with z by (unfold qval; rewrite Ez; reflexivity). exact C. }
  intros I HI. destruct (at_pol_values _ _ _ _ I (attrs_of (rec t ps c 2)) E1 HI (rec_values RR 2)) as (e & He & Ie).
  destruct (at_unpol_values _ _ _ _ I (attrs_of (rec t ps c 1)) E2 HI (rec_values RR 1)) as (u & Hu' & Iu).
  destruct (at_unpol_values _ _ _ _ I (attrs_of (rec t ps c 1)) E3 HI (rec_values RR 1)) as (w & Hw & Iw).
  exists e, u, w. split; [|split; [|split]].
  - rewrite (call_pol RR I rho mo (q_pol xs) W (point_args t xs G) D), He. reflexivity.
  - rewrite (call_unpol RR I up mo0 (q_unpol (rename to_up xs)) W0), Hu'; [reflexivity| |].
    + rewrite (up_args t 3 rho up mo mo0 (double_ok 0 rho) (fun _ => proj1 T)), (point_args t xs G : pol_at t 3 rho mo = _), up_restrict, up_point. reflexivity.
    + change (qval ps "p.dens_threshold" <= 2 * qval xs "r0"). lra.
  - rewrite (call_unpol RR I dn mo1 (q_unpol (rename to_down xs)) W1), Hw; [reflexivity| |].
    + rewrite (down_args t 3 rho dn mo mo1 (double_ok 1 rho) (fun _ => proj2 T)), (point_args t xs G : pol_at t 3 rho mo = _), down_restrict, down_point. reflexivity.
    + change (qval ps "p.dens_threshold" <= 2 * qval xs "r1"). lra.
  - cbn [times option_map plus] in Ha.
    pose proof (apart_ok _ _ _ _ Ha (imul_ok _ _ _ _ (of_Q_ok _) Ie) (iadd_ok _ _ _ _ (imul_ok _ _ _ _ (of_Q_ok a) Iu) (imul_ok _ _ _ _ (of_Q_ok b) Iw))) as N.
    rewrite Q2R_plus in N. change (f_val rho [0%nat]) with (qval xs "r0"). change (f_val rho [1%nat]) with (qval xs "r1").
    change (f_val up []) with (2 * qval xs "r0"). change (f_val dn []) with (2 * qval xs "r1").
    rewrite (qval_ok _ _ _ A), (qval_ok _ _ _ B). intros X. apply N. lra.
Qed.

(** A closed shell, in the two spin modes. *)
Definition callable_shell (ps xs : qlist) (c : compiled) : bool :=
  calls_ok ps c && q_uabove ps xs && match name_to_type (src_name (c_src c)) with Ok t => given_unpol t xs | Err _ => false end.
Lemma callable_shell_ok ps xs c : callable_shell ps xs c = true -> exists t, ready_record t ps c /\ given_unpol t xs = true /\
  qval ps "p.dens_threshold" < qval xs "r0" / 2.
Proof.
  intros H. apply andb_prop in H. destruct H as [H G]. apply andb_prop in H. destruct H as [C U]. destruct (calls_ready _ _ C) as (t & RR).
  exists t. split; [exact RR|]. rewrite (rr_type _ _ _ RR) in G. split; [exact G|].
  unfold q_uabove in U. unfold qval, qget. destruct (qlook ps "p.dens_threshold"); [|discriminate]. destruct (qlook xs "r0"); [|discriminate].
  apply qlt_ok in U. rewrite Q2R_mult, RPow.Q2R_half in U. cbn [option_map]. lra.
Qed.
Theorem call_both_sound ps xs c : callable_shell ps xs c = true -> refute_closed ps xs c = true ->
  call_shell_differs ps (c_src c) /\ call_spin_otherwise ps (c_src c).
Proof.
  intros H K. destruct (callable_shell_ok _ _ _ H) as (t & RR & G & D).
  unfold refute_closed in K. apply andb_prop in K. destruct K as [K Ha]. apply andb_prop in K. destruct K as [Hz _].
  unfold given_unpol in G. apply andb_prop in G. destruct G as [G Ht]. apply andb_prop in G. destruct G as [G Hs]. apply andb_prop in G. destruct G as [N P]. apply q_pos_ok in P.
  destruct (at_unpol ps xs c) as [i|] eqn:E1; [|discriminate]. destruct (at_pol ps (rename to_closed xs) c) as [j|] eqn:E2; [|discriminate].
  pose proof (q_nonneg_val _ _ Ht) as T0.
  set (rho := point_rho_unpol xs). set (mo := Some (orbital (qval xs "tau0"))). set (rho' := halve_rho rho). set (mo' := Some (orbitals (qval xs "tau0" / 2) (qval xs "tau0" / 2))).
  assert (W : well_formed (rec t ps c 1) rho mo) by (apply (wf_unpol _ _ _ _ _ 1); reflexivity).
  assert (W' : well_formed (rec t ps c 2) rho' mo') by (apply (wf_pol _ _ _ _ _ 1); reflexivity).
  assert (T : forall s, (s < 2)%nat -> tau_pol 3 mo' s = tau_unpol 3 mo / 2).
  { intros s Hs'. unfold mo, mo'. rewrite tau_orbitals, tau_orbital by (assumption || lra). destruct s as [|[|s]]; [reflexivity|reflexivity|lia]. }
  assert (EA : unpol_at t 3 rho mo = restrict_unpol t (q_unpol xs)) by exact (point_args_unpol t xs (name_family _ _ (rr_type _ _ _ RR)) N Hs Ht).
  assert (Vals : forall I, ops_ok I -> exists v w, epsilon_xc I (own_module (c_src c)) (rec t ps c 1) 3 rho mo = Ok (Some v) /\
    epsilon_xc I (own_module (c_src c)) (rec t ps c 2) 3 rho' mo' = Ok (Some w) /\ v <> w).
  { intros I HI. destruct (at_unpol_values _ _ _ _ I (attrs_of (rec t ps c 1)) E1 HI (rec_values RR 1)) as (v & Hv & Iv).
    destruct (at_pol_values _ _ _ _ I (attrs_of (rec t ps c 2)) E2 HI (rec_values RR 2)) as (w & Hw & Iw).
    exists v, w. split; [|split; [|exact (apart_ok _ _ _ _ Ha Iv Iw)]].
    - rewrite (call_unpol RR I rho mo (q_unpol xs) W EA), Hv; [reflexivity|]. change (qval ps "p.dens_threshold" <= qval xs "r0"). lra.
    - rewrite (call_pol RR I rho' mo' (q_pol (rename to_closed xs)) W'), Hw; [reflexivity| |].
      + rewrite (closed_args t 3 rho rho' mo mo' (halve_ok rho) (fun _ => T)), EA, closed_restrict, closed_point. reflexivity.
      + change (qval ps "p.dens_threshold" <= qval xs "r0" / 2 + qval xs "r0" / 2). lra. }
  split.
  - exists (own_module (c_src c)), (rec t ps c 1), (rec t ps c 2), rho, rho', mo, mo'.
    split; [exact (rr_with _ _ _ RR 1)|]. split; [exact (rr_with _ _ _ RR 2)|]. split; [apply rec_same|]. split; [exact W|]. split; [exact W'|].
    split; [exact P|]. split; [apply halve_ok|]. split; [exact T|]. exact Vals.
  - exists (own_module (c_src c)), (rec t ps c 2), (rec t ps c 1), rho', rho, rho, mo', mo, mo.
    split; [exact (rr_with _ _ _ RR 2)|]. split; [exact (rr_with _ _ _ RR 1)|]. split; [repeat split|]. split; [exact W'|]. split; [exact W|]. split; [exact W|].
    assert (V : forall s, f_val rho' [s] = qval xs "r0" / 2) by reflexivity.
    assert (Db : forall s, doubled s 3 rho' rho).
    { intros s. unfold doubled, rho', halve_rho. cbn [f_val f_jac f_hess]. repeat split; intros; field. }
    split; [unfold positive_pol; rewrite !V; lra|]. split; [exact (Db 0%nat)|]. split; [exact (Db 1%nat)|].
    split; [rewrite !T by lia; split; field|]. split; [split; exact D|]. split.
    { unfold unclipped. rewrite !V. replace (2 * (qval xs "r0" / 2) / (qval xs "r0" / 2 + qval xs "r0" / 2)) with 1 by (field; lra).
      destruct (proj1 (rr_with _ _ _ RR 2)) as (_ & _ & _ & _ & Z). split; exact Z. }
    intros I HI. destruct (Vals I HI) as (v & w & Hv & Hw & Nq). exists w, v, v. split; [exact Hw|]. split; [exact Hv|]. split; [exact Hv|].
    rewrite !V. change (f_val rho []) with (qval xs "r0"). intros X. apply Nq.
    apply (Rmult_eq_reg_l (qval xs "r0")); [lra|lra].
Qed.

(** Signs. *)
Theorem call_sign_sound (bad : R -> Prop) (test : itv -> bool) ps xs c : (forall i v, test i = true -> inside i v -> bad v) ->
  callable_point ps xs c = true -> q_pos xs "tau0" && q_pos xs "tau1" = true ->
  match at_pol ps xs c with Some i => test i | None => false end = true -> call_with_sign bad ps (c_src c).
Proof.
  intros B H Hp K. destruct (callable_point_ok _ _ _ H) as ((t & RR) & G & D). apply andb_prop in Hp. destruct Hp as [P0 P1]. apply q_pos_ok in P0, P1.
  destruct (at_pol ps xs c) as [i|] eqn:E1; [|discriminate]. pose proof G as [_ R0 R1 T0 T1 _ _ _].
  assert (W : well_formed (rec t ps c 2) (point_rho xs) (Some (point_mo xs))) by (apply (wf_pol _ _ _ _ _ 1); reflexivity).
  exists (own_module (c_src c)), (rec t ps c 2), (point_rho xs), (Some (point_mo xs)).
  split; [exact (rr_with _ _ _ RR 2)|]. split; [exact W|]. split; [exact (conj R0 R1)|].
  unfold point_mo. rewrite !tau_orbitals by (assumption || lia). split; [exact P0|]. split; [exact P1|]. fold (point_mo xs).
  intros I HI. destruct (at_pol_values _ _ _ _ I (attrs_of (rec t ps c 2)) E1 HI (rec_values RR 2)) as (v & Hv & Iv).
  exists v. rewrite (call_pol RR I _ _ (q_pol xs) W (point_args t xs G) D), Hv. split; [reflexivity|exact (B _ _ K Iv)].
Qed.
End Sound.

(** ** Uniform densities *)
Definition even_rho (a b : R) : field R := Field [2%nat] (at_spin a b) (fun _ _ => 0) (fun _ _ _ => 0).
Lemma even_ok a b : uniform 3 (even_rho a b). Proof. intros s _. split; intros; reflexivity. Qed.
Section Gas.
Context {prc : setting} {pik : pi_known}.
Variables (target : expr) (e : R -> R -> R).
Hypothesis Ht : forall I (G : Semantics.env) r0 r1, G "r0"%b = Some (VR r0) -> G "r1"%b = Some (VR r1) -> 0 < r0 -> 0 < r1 ->
  eval I G target = Some (VR (e r0 r1)).
Lemma flat_values ps a b A : forallb (fun e : bstr * Q => attr_name (fst e)) ps = true -> (forall x q, qlook ps x = Some q -> A x = Some (Q2R q)) ->
  forall x q, qlook (ps ++ flat a b) x = Some q -> pol_env A (uniform_gas (Q2R a) (Q2R b)) x = Some (VR (Q2R q)).
Proof.
  intros Ep HA x q Hq. rewrite qlook_app in Hq. destruct (qlook ps x) as [q'|] eqn:Eq.
  - injection Hq as ->. pose proof (name_at _ _ _ Ep Eq) as N. rewrite pol_attr by exact N. rewrite (HA _ _ Eq). reflexivity.
  - unfold flat in Hq. cbn [qlook] in Hq.
    repeat match type of Hq with (if beqb x ?y then _ else _) = _ => let E := fresh "E" in destruct (beqb x y) eqn:E;
      [apply beqb_eq in E; subst x; injection Hq as <-; unfold pol_env, uniform_gas; cbn -[Q2R tf]; rewrite ?RPow.Q2R_0; reflexivity|clear E] end.
    discriminate.
Qed.
Theorem call_limit_sound a b ps c : calls_ok ps c = true -> refute_uniform target a b ps c = true -> call_misses_limit e ps (c_src c).
Proof.
  intros HC H. destruct (calls_ready _ _ HC) as (t & RR).
  unfold refute_uniform in H. apply andb_prop in H. destruct H as [H Ha]. apply andb_prop in H. destruct H as [H Hn]. apply andb_prop in Hn. destruct Hn as [Hn Hs].
  apply andb_prop in H. destruct H as [H Hu]. apply andb_prop in H. destruct H as [H Hd]. apply andb_prop in H. destruct H as [Hz Hp]. apply andb_prop in Hp. destruct Hp as [H0 H1].
  apply qlt_ok in H0. apply qlt_ok in H1. rewrite RPow.Q2R_0 in H0, H1. apply above_val in Hd.
  change (qval (flat a b) "r0") with (Q2R a) in Hd. change (qval (flat a b) "r1") with (Q2R b) in Hd.
  set (rho := even_rho (Q2R a) (Q2R b)). set (mo := Some (orbitals (tf (Q2R a)) (tf (Q2R b)))).
  assert (P0 : 0 <= tf (Q2R a)) by (apply Rlt_le, tf_pos, H0). assert (P1 : 0 <= tf (Q2R b)) by (apply Rlt_le, tf_pos, H1).
  assert (W : well_formed (rec t ps c 2) rho mo) by (apply (wf_pol _ _ _ _ _ 1); reflexivity).
  assert (T : forall s, (s < 2)%nat -> tau_pol 3 mo s = tf (f_val rho [s])).
  { intros s Hs'. unfold mo. rewrite tau_orbitals by assumption. destruct s as [|[|s]]; [reflexivity|reflexivity|lia]. }
  exists (own_module (c_src c)), (rec t ps c 2), rho, mo.
  split; [exact (rr_with _ _ _ RR 2)|]. split; [exact W|]. split; [exact (conj H0 H1)|]. split; [apply even_ok|]. split; [exact T|]. split; [exact Hd|].
  split.
  { pose proof (q_unclipped_ok _ _ Hu) as C. unfold not_clipped in C. destruct (q_zeta_ok _ Hz) as (z & Ez & _). specialize (C z Ez). cbn [q_pol p_r0 p_r1] in C.
    unfold unclipped. change (zeta_threshold (fp_scal (rec t ps c 2))) with (qval ps "p.zeta_threshold").
    replace (qval ps "p.zeta_threshold") with z by (unfold qval; rewrite Ez; reflexivity). exact C. }
  intros I HI. set (A := attrs_of (rec t ps c 2)). set (G := pol_env A (uniform_gas (Q2R a) (Q2R b))).
  assert (E : forall x, fine [1] (G x) (alook (point_env (ps ++ flat a b)) x)) by (apply point_env_ok; exact (flat_values ps a b A Hn (rec_values RR 2))).
  assert (V : forall f, fine [1] (eval I G f) (aev [SPos] (point_env (ps ++ flat a b)) [] 0 [] f)).
  { intros f. apply (aev_ok I HI [1] headed1 [SPos] sorts1 G _ [] E); [intros x g Hx; discriminate|]. intros g i x []. }
  assert (G0 : G "r0"%b = Some (VR (Q2R a))) by reflexivity. assert (G1 : G "r1"%b = Some (VR (Q2R b))) by reflexivity.
  assert (F : forall x, fine [1] (G x) (alook (gas_env ps a b) x)).
  { intros x. unfold gas_env. cbn [alook]. destruct (beqb x "tau0") eqn:E0; [|destruct (beqb x "tau1") eqn:E1; [|apply E]].
    - apply beqb_eq in E0. subst x. change (G "tau0"%b) with (Some (VR (tf (Q2R a)))). rewrite <- (eval_tf I G _ _ G0 H0). apply V.
    - apply beqb_eq in E1. subst x. change (G "tau1"%b) with (Some (VR (tf (Q2R b)))). rewrite <- (eval_tf I G _ _ G1 H1). apply V. }
  destruct (shown [SPos] (gas_env ps a b) (c_pol c)) as [i|] eqn:S; [|discriminate].
  destruct (shown_ok I HI [1] headed1 [SPos] sorts1 _ _ _ _ F Hs S) as (v & Hv & Iv).
  exists v. split.
  - rewrite (call_pol RR I rho mo (uniform_gas (Q2R a) (Q2R b)) W).
    + rewrite result_pol. f_equal. exact Hv.
    + exact (uniform_args t 3 rho mo (even_ok _ _) (fun _ => T)).
    + change (qval ps "p.dens_threshold" <= Q2R a + Q2R b). lra.
  - pose proof (V target) as [X _]. rewrite (Ht I G _ _ G0 G1 H0 H1) in X.
    destruct (fst (aev [SPos] (point_env (ps ++ flat a b)) [] 0 [] target)) as [j [|]|r d|]; try discriminate. cbn [good] in X.
    cbn [times option_map] in Ha. change (f_val rho [0%nat]) with (Q2R a). change (f_val rho [1%nat]) with (Q2R b).
    rewrite <- Q2R_plus. exact (apart_ok _ _ _ _ Ha (imul_ok _ _ _ _ (of_Q_ok _) Iv) X).
Qed.
End Gas.
Section Limits.
Context {prc : setting} {pik : pi_known}.
Theorem call_limit_x_sound a b ps c : calls_ok ps c = true -> refute_uniform slater a b ps c = true -> call_misses_limit slater_energy ps (c_src c).
Proof.
  apply call_limit_sound. intros I G r0 r1 G0 G1 H0 H1. unfold slater. cbn [eval].
  rewrite (eval_slater_one I G _ r0 G0 H0), (eval_slater_one I G _ r1 G1 H1). cbn [lift2].
  unfold slater_energy. do 2 f_equal. ring.
Qed.
Theorem call_limit_k_sound a b ps c : calls_ok ps c = true -> refute_uniform thomas_fermi a b ps c = true -> call_misses_limit tf_energy ps (c_src c).
Proof.
  apply call_limit_sound. intros I G r0 r1 G0 G1 H0 H1. unfold thomas_fermi. cbn [eval].
  rewrite (eval_tf I G _ r0 G0 H0), (eval_tf I G _ r1 G1 H1). reflexivity.
Qed.

(** No value without a gradient. *)
Definition q_null (xs : qlist) (x : bstr) : bool := match qlook xs x with Some q => Qeq_bool q 0 | None => false end.
Lemma q_null_ok xs x : q_null xs x = true -> qval xs x = 0.
Proof.
  unfold q_null, qval, qget. destruct (qlook xs x) as [q|]; [|discriminate]. intros H. apply Qeq_bool_eq, Qeq_eqR in H. rewrite RPow.Q2R_0 in H. exact H.
Qed.
Definition without_gradient (xs : qlist) : bool := forallb (q_null xs) ["s0"; "s1"; "s2"; "l0"; "l1"]%b && q_pos xs "tau0" && q_pos xs "tau1".
Definition without_gradient_unpol (xs : qlist) : bool := forallb (q_null xs) ["s0"; "l0"]%b && q_pos xs "tau0".
Lemma vec3_zero a b i : a = 0 -> b = 0 -> vec3 a b i = 0.
Proof. intros -> ->. destruct i as [|[|i]]; reflexivity. Qed.
Theorem call_value_sound ps xs us c : callable_point ps xs c = true -> callable_shell ps us c = true -> without_gradient xs = true -> without_gradient_unpol us = true ->
  fails_pol ps xs c && fails_unpol ps us c = true -> call_without_value ps (c_src c).
Proof.
  intros H Hs N Nu K. apply andb_prop in K. destruct K as [K Ku]. split.
  - destruct (callable_point_ok _ _ _ H) as ((t & RR) & G & D). pose proof G as [_ R0 R1 T0 T1 _ _ _].
    unfold fails_pol in K. apply andb_prop in K. destruct K as [K Hr]. apply andb_prop in K. destruct K as [K _]. apply andb_prop in K. destruct K as [_ Ha].
    apply above_val in Ha. apply andb_prop in Hr. destruct Hr as [Hr Hm]. apply andb_prop in Hr. destruct Hr as [Ep Ex].
    unfold without_gradient in N. apply andb_prop in N. destruct N as [N P1]. apply andb_prop in N. destruct N as [N P0]. apply q_pos_ok in P0, P1. rewrite forallb_forall in N.
    assert (Z : forall x, In x ["s0"; "s1"; "s2"; "l0"; "l1"]%b -> qval xs x = 0) by (intros x Hx; apply q_null_ok, N, Hx).
    assert (W : well_formed (rec t ps c 2) (point_rho xs) (Some (point_mo xs))) by (apply (wf_pol _ _ _ _ _ 1); reflexivity).
    exists (own_module (c_src c)), (rec t ps c 2), (point_rho xs), (Some (point_mo xs)).
    split; [exact (rr_with _ _ _ RR 2)|]. split; [exact W|]. split; [exact (conj R0 R1)|]. split.
    { intros s Hs'. unfold point_rho. cbn [f_jac f_hess]. unfold first_grad, second_grad.
      rewrite (Z "s0"%b), (Z "s1"%b), (Z "s2"%b), (Z "l0"%b), (Z "l1"%b) by (cbn; tauto).
      split; intros i _; destruct s as [|[|s]]; try lia; cbn [at_spin]; try (destruct i; reflexivity).
      - apply vec3_zero; [apply sqrt_0|reflexivity].
      - apply vec3_zero; [unfold Rdiv; ring|]. replace (0 - 0 * 0 / 0) with 0 by (unfold Rdiv; ring). apply sqrt_0. }
    unfold point_mo. rewrite !tau_orbitals by (assumption || lia). split; [exact P0|]. split; [exact P1|]. fold (point_mo xs). split; [exact Ha|].
    intros I HI. rewrite (call_pol RR I _ _ (q_pol xs) W (point_args t xs G) D). f_equal. rewrite result_pol. unfold result.
    match goal with |- match exec I ?G _ _ with _ => _ end = _ => assert (F : forall x, fine [1] (G x) (alook (point_env (ps ++ xs)) x)) end.
    2: { rewrite (dead_run_ok I HI _ _ _ _ F no_dead _ Hm). reflexivity. }
    apply point_env_ok. intros x q Hq. pose proof (pol_point_env ps xs Ep Ex x q Hq) as Gv. rewrite qlook_app in Hq. destruct (qlook ps x) as [q'|] eqn:Eq.
    + injection Hq as ->. rewrite pol_attr by exact (name_at _ _ _ Ep Eq). rewrite (rec_values RR 2 _ _ Eq). reflexivity.
    + pose proof (arg_at _ _ _ _ Ex Hq) as M. unfold pol_names in M. cbn [In] in M. repeat destruct M as [M|M]; try contradiction; subst x; exact Gv.
  - destruct (callable_shell_ok _ _ _ Hs) as (t & RR & G & D).
    unfold fails_unpol in Ku. apply andb_prop in Ku. destruct Ku as [_ Hr]. apply andb_prop in Hr. destruct Hr as [Hr Hm]. apply andb_prop in Hr. destruct Hr as [Ep Ex].
    unfold given_unpol in G. apply andb_prop in G. destruct G as [G Ht]. apply andb_prop in G. destruct G as [G Hs0]. apply andb_prop in G. destruct G as [Nm P]. apply q_pos_ok in P.
    unfold without_gradient_unpol in Nu. apply andb_prop in Nu. destruct Nu as [Nu P0]. apply q_pos_ok in P0. rewrite forallb_forall in Nu.
    assert (Z : forall x, In x ["s0"; "l0"]%b -> qval us x = 0) by (intros x Hx; apply q_null_ok, Nu, Hx).
    assert (W : well_formed (rec t ps c 1) (point_rho_unpol us) (Some (orbital (qval us "tau0")))) by (apply (wf_unpol _ _ _ _ _ 1); reflexivity).
    exists (own_module (c_src c)), (rec t ps c 1), (point_rho_unpol us), (Some (orbital (qval us "tau0"))).
    split; [exact (rr_with _ _ _ RR 1)|]. split; [exact W|].
    split; [change (qval ps "p.dens_threshold" < qval us "r0"); lra|]. split; [exact P|]. split.
    { intros i _. unfold point_rho_unpol. cbn [f_jac f_hess]. unfold first_grad. rewrite (Z "s0"%b), (Z "l0"%b) by (cbn; tauto).
      split; [apply vec3_zero; [apply sqrt_0|reflexivity]|destruct i; reflexivity]. }
    rewrite tau_orbital by lra. split; [exact P0|].
    intros I HI. rewrite (call_unpol RR I _ _ (q_unpol us) W (point_args_unpol t us (name_family _ _ (rr_type _ _ _ RR)) Nm Hs0 Ht)).
    2: { change (qval ps "p.dens_threshold" <= qval us "r0"). lra. }
    f_equal. rewrite result_unpol. unfold result.
    match goal with |- match exec I ?G _ _ with _ => _ end = _ => assert (F : forall x, fine [1] (G x) (alook (point_env (ps ++ us)) x)) end.
    2: { rewrite (dead_run_ok I HI _ _ _ _ F no_dead _ Hm). reflexivity. }
    apply point_env_ok. intros x q Hq. pose proof (unpol_point_env ps us Ep Ex x q Hq) as Gv. rewrite qlook_app in Hq. destruct (qlook ps x) as [q'|] eqn:Eq.
    + injection Hq as ->. rewrite unpol_attr by exact (name_at _ _ _ Ep Eq). rewrite (rec_values RR 1 _ _ Eq). reflexivity.
    + pose proof (arg_at _ _ _ _ Ex Hq) as M. unfold unpol_names in M. cbn [In] in M. repeat destruct M as [M|M]; try contradiction; subst x; exact Gv.
Qed.
End Limits.
