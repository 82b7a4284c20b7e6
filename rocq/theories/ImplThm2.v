(** More facts about the evaluation path of Impl.v: agreement of the two interfaces, what the
    value depends on, rotations, gradient products and tau. *)
From Coq Require Import Reals List Bool QArith Arith Lra Lia FunctionalExtensionality.
From Verif Require Import Bytes Syntax Parser PostProcess Src Semantics Free Vec Deriv Impl ImplThm.
Import ListNotations.
Open Scope R_scope.

(** A predicate on every functional of a tree, through func_aux. *)
Fixpoint all_nodes (P : func_p -> Prop) (p : func_p) {struct p} : Prop :=
  P p /\
  match p with
  | FuncP _ _ _ _ _ _ aux _ =>
      match aux with
      | None => True
      | Some ps => (fix go (ps : list func_p) : Prop := match ps with q :: ps => all_nodes P q /\ go ps | [] => True end) ps
      end
  end.
Lemma all_nodes_here P p : all_nodes P p -> P p.
Proof. destruct p. cbn. intros [H _]. exact H. Qed.
Lemma all_nodes_aux P p ps : all_nodes P p -> fp_aux p = Some ps -> Forall (all_nodes P) ps.
Proof.
  destruct p as [name ty ns mp sc pa aux mix]. cbn [all_nodes fp_aux]. intros [_ H] ->.
  induction ps as [|q ps IH]; constructor; [apply H|apply IH, H].
Qed.

(** ** C20: the experimental interface *)

(** A functional as libxc provides it for n spins: one of the three families, not a
    deorbitalized one. *)
Definition regular (n : nat) (p : func_p) : Prop :=
  family (fp_type p) /\ fp_nspin p = n /\ beqb (fp_maple p) DEORBITALIZE = false.
Definition spins (rho : field R) (n : nat) : Prop :=
  (n = 1%nat /\ f_shape rho = []) \/ (n = 2%nat /\ f_shape rho = [2%nat]).
Definition orbitals_fit (mo : field complex) (n : nat) : Prop :=
  (n = 1%nat /\ exists N, f_shape mo = [N]) \/ (n = 2%nat /\ exists N, f_shape mo = [2%nat; N]).

Lemma spins_wf p n rho mo : fp_nspin p = n -> spins rho n ->
  (fp_type p = "mgga"%b -> exists m, mo = Some m /\ orbitals_fit m n) -> well_formed p rho mo.
Proof.
  intros Hn Hs Hm. unfold well_formed. rewrite Hn.
  destruct Hs as [[-> Hs]|[-> Hs]]; rewrite Hs; repeat split; try congruence; intros Ht;
    destruct (Hm Ht) as (m & -> & [[E [N HN]]|[E [N HN]]]); try discriminate; exists m; repeat split; try discriminate; eauto.
Qed.
Lemma exp_density_spin_of rho : exp_density rho = spin_of rho.
Proof. reflexivity. Qed.
Lemma exp_total_spin p n rho mo : fp_nspin p = n -> nspin_ok p -> well_formed p rho mo ->
  exp_total (fp_nspin p) (spin_of rho) = total_density p rho.
Proof.
  intros Hn Hok (W1 & W2 & _). unfold exp_total, total_density, spin_of. destruct Hok as [E|E]; rewrite E.
  - rewrite (W1 E). reflexivity.
  - rewrite (W2 E). reflexivity.
Qed.

Lemma exp_single_eq I f p n rho mo v : regular n p -> spins rho n ->
  (forall m, mo = Some m -> orbitals_fit m n) ->
  (exp_single I f p rho mo None = Ok v <-> impl_invoke I f p 3 rho mo None = Ok v).
Proof.
  intros (Hf & Hn & _) Hs Hm.
  assert (Hok : nspin_ok p) by (unfold nspin_ok; rewrite Hn; destruct Hs as [[-> _]|[-> _]]; auto).
  assert (Hsp : (fp_nspin p =? 1) || (fp_nspin p =? 2) = true) by (rewrite Hn; destruct Hs as [[-> _]|[-> _]]; reflexivity).
  assert (Hcase : (exists m, fp_type p = "mgga"%b /\ mo = Some m) \/ (fp_type p = "mgga"%b /\ mo = None) \/ fp_type p <> "mgga"%b).
  { destruct (is_type p "mgga") eqn:E; [apply is_type_eq in E|apply is_type_neq in E; auto]. destruct mo; eauto. }
  destruct Hcase as [(m & Ht & ->)|[[Ht ->]|Ht]].
  - assert (W : well_formed p rho (Some m)) by (apply (spins_wf p n); auto; intros _; exists m; auto).
    rewrite (impl_invoke_eq I f p 3 rho (Some m) None Hf Hok W). unfold exp_single. rewrite Hsp. cbn [negb].
    unfold expected_args.
    rewrite (proj2 (is_type_neq p "lda")) by (rewrite Ht; discriminate).
    rewrite (proj2 (is_type_neq p "gga")) by (rewrite Ht; discriminate).
    rewrite (proj2 (is_type_eq p "mgga")) by exact Ht.
    specialize (Hm m eq_refl).
    assert (Es : exp_compute_s rho = Some (grad_products 3 (fp_nspin p =? 2) rho)).
    { unfold exp_compute_s. rewrite Hn. destruct Hs as [[-> Hs]|[-> Hs]]; rewrite Hs; reflexivity. }
    rewrite Es.
    assert (El : exp_compute_l rho = laplacian 3 (fp_nspin p =? 2) rho).
    { unfold exp_compute_l. rewrite Hn. destruct Hs as [[-> Hs]|[-> Hs]]; rewrite Hs; reflexivity. }
    assert (Et : exp_compute_tau m = kinetic 3 (fp_nspin p =? 2) m).
    { unfold exp_compute_tau, kinetic. rewrite Hn. destruct Hm as [[-> [N HN]]|[-> [N HN]]]; rewrite HN; reflexivity. }
    rewrite El, Et. unfold exp_filter. cbn [fa_dens].
    rewrite exp_density_spin_of, (exp_total_spin p n rho (Some m) Hn Hok W). reflexivity.
  - rewrite (mgga_needs_mo I f p 3 rho None) by (apply is_type_eq, Ht).
    unfold exp_single. rewrite Hsp. cbn [negb].
    rewrite (proj2 (is_type_neq p "lda")) by (rewrite Ht; discriminate).
    rewrite (proj2 (is_type_neq p "gga")) by (rewrite Ht; discriminate).
    rewrite (proj2 (is_type_eq p "mgga")) by exact Ht.
    destruct (exp_compute_s rho); split; discriminate.
  - assert (W : well_formed p rho mo) by (apply (spins_wf p n); auto; intros E; contradiction).
    rewrite (impl_invoke_eq I f p 3 rho mo None Hf Hok W). unfold exp_single. rewrite Hsp. cbn [negb].
    assert (Es : exp_compute_s rho = Some (grad_products 3 (fp_nspin p =? 2) rho)).
    { unfold exp_compute_s. rewrite Hn. destruct Hs as [[-> Hs]|[-> Hs]]; rewrite Hs; reflexivity. }
    unfold expected_args. destruct Hf as [Hf|[Hf|Hf]]; [| |contradiction].
    + rewrite (proj2 (is_type_eq p "lda")) by exact Hf. unfold exp_filter. cbn [fa_dens].
      rewrite exp_density_spin_of, (exp_total_spin p n rho mo Hn Hok W). reflexivity.
    + rewrite (proj2 (is_type_neq p "lda")) by (rewrite Hf; discriminate).
      rewrite (proj2 (is_type_eq p "gga")) by exact Hf. rewrite Es. unfold exp_filter. cbn [fa_dens].
      rewrite exp_density_spin_of, (exp_total_spin p n rho mo Hn Hok W). reflexivity.
Qed.

Lemma exp_make_eq I impl n rho mo : spins rho n -> (forall m, mo = Some m -> orbitals_fit m n) ->
  forall p v, all_nodes (regular n) p -> tree_ok p ->
  (exp_make I impl rho mo None p = Ok v <-> invoke I impl 3 rho mo p = Ok v).
Proof.
  intros Hs Hm. induction p as [name ty ns mp sc pa aux mix IH] using func_p_ind'. intros v Hall Ht.
  pose proof (all_nodes_here _ _ Hall) as Hreg. pose proof Hreg as (_ & _ & Hd). cbn [fp_maple] in Hd.
  cbn [exp_make invoke tree_ok] in *. rewrite Hd. destruct (beqb mp "") eqn:Em.
  - destruct aux as [ps|]; [|contradiction]. destruct mix as [cs|]; [|contradiction]. destruct Ht as [Hlen Ht].
    specialize (IH ps eq_refl). pose proof (all_nodes_aux _ _ ps Hall eq_refl) as Haux. clear Hall Hreg.
    match goal with |- context [rbind (?g ps) _] => set (ge := g) end.
    match goal with |- context [rbind (?g ps cs) _] => set (gm := g) end.
    assert (G : forall us, gm ps cs = Ok us <->
       exists vs, ge ps = Ok vs /\ us = map (fun vc => oscale (snd vc) (fst vc)) (combine vs cs)).
    { clear Em v Hd. revert cs Hlen Ht IH Haux. induction ps as [|q ps IHps]; intros [|c cs] Hlen Ht IH Haux us; try discriminate.
      - cbn. split; [intros E; injection E as <-; exists []; auto|intros (vs & E & ->); injection E as <-; reflexivity].
      - destruct Ht as [Hq Ht]. inversion IH as [|? ? IHq IH']; subst. inversion Haux as [|? ? Hq' Haux']; subst.
        cbn [length] in Hlen. injection Hlen as Hlen.
        specialize (IHps cs Hlen Ht IH' Haux'). cbn. fold gm ge. split.
        + intros E. destruct (invoke I impl 3 rho mo q) as [x|] eqn:Ex; cbn [rbind] in E; [|discriminate].
          destruct (gm ps cs) as [xs|] eqn:Exs; cbn [rbind] in E; [|discriminate].
          injection E as <-. destruct (proj1 (IHps xs) eq_refl) as (vs & Evs & ->).
          exists (x :: vs). rewrite (proj2 (IHq x Hq' Hq)) by reflexivity. cbn [rbind]. rewrite Evs. split; reflexivity.
        + intros (vs & E & ->). destruct (exp_make I impl rho mo None q) as [x|] eqn:Ex; cbn [rbind] in E; [|discriminate].
          destruct (ge ps) as [xs|] eqn:Exs; cbn [rbind] in E; [|discriminate]. injection E as <-.
          rewrite (proj1 (IHq x Hq' Hq)) by reflexivity. cbn [rbind].
          rewrite (proj2 (IHps (map (fun vc => oscale (snd vc) (fst vc)) (combine xs cs)))) by (exists xs; auto). reflexivity. }
    split.
    + destruct (ge ps) as [vs|] eqn:E; cbn [rbind]; [|discriminate].
      rewrite (proj2 (G (map (fun vc => oscale (snd vc) (fst vc)) (combine vs cs)))) by (exists vs; auto). cbn [rbind]. auto.
    + destruct (gm ps cs) as [us|] eqn:E; cbn [rbind]; [|discriminate].
      destruct (proj1 (G us) eq_refl) as (vs & -> & ->). cbn [rbind]. auto.
  - destruct (impl mp) as [f|]; [|split; discriminate].
    apply (exp_single_eq I f _ n); assumption.
Qed.

Theorem experimental_agrees I impl (get_p : bool -> func_p) rho mo (b : bool) v :
  f_shape rho = (if b then [2%nat] else []) ->
  all_nodes (regular (if b then 2%nat else 1%nat)) (get_p b) -> tree_ok (get_p b) ->
  (fp_type (get_p b) = "mgga"%b -> exists m, mo = Some m /\ orbitals_fit m (if b then 2%nat else 1%nat)) ->
  (exp_epsilon_xc I impl get_p rho mo = Ok v <-> epsilon_xc I impl (get_p b) 3 rho mo = Ok v).
Proof.
  intros Hsh Hall Ht Hm. unfold exp_epsilon_xc, epsilon_xc, is_polarized.
  assert (Hs : spins rho (if b then 2%nat else 1%nat)) by (destruct b; [right|left]; auto).
  assert (E : match f_shape rho with [2%nat] => Ok true | [] => Ok false | _ => Err ValueError end = Ok b) by (rewrite Hsh; destruct b; reflexivity).
  rewrite E. cbn [rbind]. destruct (is_type (get_p b) "mgga") eqn:Em.
  - apply is_type_eq in Em. destruct (Hm Em) as (m & -> & Hfit).
    assert (Ec : check_mo_shape m b = Ok tt).
    { unfold check_mo_shape. destruct Hfit as [[Eb [N HN]]|[Eb [N HN]]]; destruct b; try discriminate; rewrite HN; reflexivity. }
    rewrite Ec. cbn [rbind]. apply (exp_make_eq I impl (if b then 2%nat else 1%nat)); auto.
    intros m' E'. injection E' as <-. exact Hfit.
  - cbn [rbind]. apply (exp_make_eq I impl (if b then 2%nat else 1%nat)); auto. discriminate.
Qed.
(** A malformed density or malformed orbitals for a meta-GGA are rejected by the experimental
    interface before anything is evaluated. *)
Theorem experimental_rejects I impl (get_p : bool -> func_p) rho mo v :
  exp_epsilon_xc I impl get_p rho mo = Ok v ->
  exists b : bool, f_shape rho = (if b then [2%nat] else []) /\
    (fp_type (get_p b) = "mgga"%b -> exists m, mo = Some m /\ orbitals_fit m (if b then 2%nat else 1%nat)).
Proof.
  unfold exp_epsilon_xc, is_polarized.
  assert (C : (exists b : bool, match f_shape rho with [2%nat] => Ok true | [] => Ok false | _ => Err ValueError end = Ok b /\ f_shape rho = (if b then [2%nat] else []))
    \/ match f_shape rho with [2%nat] => Ok true | [] => Ok false | _ => Err ValueError end = @Err bool ValueError).
  { destruct (f_shape rho) as [|[|[|[|]]] [|]]; auto; left; [exists false|exists true]; auto. }
  destruct C as [(b & E & Hsh)|E]; rewrite E; cbn [rbind]; [|discriminate]. intros H. exists b. split; [exact Hsh|].
  intros Ht. apply is_type_eq in Ht. rewrite Ht in H. destruct mo as [m|]; [|discriminate]. exists m. split; [reflexivity|].
  destruct (check_mo_shape m b) as [[]|] eqn:Ec; cbn [rbind] in H; [|discriminate]. clear H.
  unfold check_mo_shape in Ec. destruct b.
  - destruct (f_shape m) as [|a [|N [|]]] eqn:Em; try discriminate. destruct (a =? 2) eqn:E2; [|discriminate].
    apply Nat.eqb_eq in E2. subst a. right. eauto.
  - destruct (f_shape m) as [|a [|]] eqn:Em; try discriminate. left. eauto.
Qed.

(** C12: the experimental interface evaluates a deorbitalized functional at tau = n * g, with g
    the value of the second component. *)
Theorem experimental_deorbitalize I impl rho m p p0 p1 rest f g (b : bool) :
  fp_maple p = DEORBITALIZE -> fp_aux p = Some (p0 :: p1 :: rest) ->
  regular (if b then 2%nat else 1%nat) p0 -> beqb (fp_maple p0) "" = false -> impl (fp_maple p0) = Some f ->
  fp_type p0 = "mgga"%b -> f_shape rho = (if b then [2%nat] else []) ->
  exp_make I impl rho (Some m) None p1 = Ok (Some g) ->
  exp_make I impl rho (Some m) None p =
  (v <- call_code I f p0 (AMgga (spin_of rho) (grad_products 3 b rho) (laplacian 3 b rho) (sv_scale g (spin_of rho)));;
   Ok (if Rlt_dec (total_density p0 rho) (dens_threshold (fp_scal p0)) then Some 0 else v)).
Proof.
  destruct p as [name ty ns mp sc pa aux mix]. cbn [fp_maple fp_aux]. intros -> -> (Hf & Hn & Hd) Hne Hi Ht Hsh Hg.
  cbn [exp_make]. change (beqb DEORBITALIZE DEORBITALIZE) with true. cbn [andb].
  rewrite Hg. destruct p0 as [name0 ty0 ns0 mp0 sc0 pa0 aux0 mix0]. cbn [exp_make fp_maple fp_type fp_nspin fp_scal] in *.
  rewrite Hd, Hne, Hi. unfold exp_single, is_type. cbn [fp_nspin fp_type]. subst ty0 ns0.
  replace (beqb "mgga" "lda") with false by reflexivity. replace (beqb "mgga" "gga") with false by reflexivity.
  replace (beqb "mgga" "mgga") with true by reflexivity.
  unfold exp_compute_s, exp_filter, exp_total, total_density, exp_density, spin_of, exp_compute_l, grad_products, laplacian. rewrite Hsh.
  destruct b; reflexivity.
Qed.

(** ** C31: what the value depends on *)
Definition agree_lda (rho rho' : field R) : Prop :=
  f_shape rho = f_shape rho' /\ (forall ix, f_val rho ix = f_val rho' ix).
Definition agree_gga (d : nat) (rho rho' : field R) : Prop :=
  agree_lda rho rho' /\ forall i j, dot d (f_jac rho i) (f_jac rho j) = dot d (f_jac rho' i) (f_jac rho' j).
Definition agree_mgga (d : nat) (rho rho' : field R) (mo mo' : option (field complex)) : Prop :=
  agree_gga d rho rho' /\
  (forall ix, rsum d (fun i => f_hess rho ix i i) = rsum d (fun i => f_hess rho' ix i i)) /\
  match mo, mo' with
  | None, None => True
  | Some m, Some m' => f_shape m = f_shape m' /\
      forall pol, kinetic d pol m = kinetic d pol m'
  | _, _ => False
  end.

Definition agree_for (t : bstr) (d : nat) (rho rho' : field R) (mo mo' : option (field complex)) : Prop :=
  (t = "lda"%b /\ agree_lda rho rho') \/ (t = "gga"%b /\ agree_gga d rho rho') \/
  (t = "mgga"%b /\ agree_mgga d rho rho' mo mo').

Lemma args_agree p d rho rho' mo mo' deo : agree_for (fp_type p) d rho rho' mo mo' ->
  rho_to_arguments p d rho mo deo = rho_to_arguments p d rho' mo' deo.
Proof.
  intros H. unfold rho_to_arguments.
  assert (A : agree_lda rho rho') by (destruct H as [[_ H]|[[_ [H _]]|[_ [[H _] _]]]]; exact H).
  destruct A as [As Av]. rewrite <- As, <- !Av.
  destruct H as [[Ht _]|[[Ht [_ Hg]]|[Ht [[_ Hg] [Hl Hm]]]]].
  - rewrite (proj2 (is_type_neq p "mgga")) by (rewrite Ht; discriminate).
    rewrite (proj2 (is_type_eq p "lda")) by exact Ht. reflexivity.
  - rewrite (proj2 (is_type_neq p "mgga")) by (rewrite Ht; discriminate).
    rewrite (proj2 (is_type_neq p "lda")) by (rewrite Ht; discriminate).
    rewrite (proj2 (is_type_eq p "gga")) by exact Ht. cbn [orb negb rbind].
    unfold grad_products. rewrite !Hg. reflexivity.
  - rewrite (proj2 (is_type_eq p "mgga")) by exact Ht.
    rewrite (proj2 (is_type_neq p "lda")) by (rewrite Ht; discriminate).
    rewrite (proj2 (is_type_neq p "gga")) by (rewrite Ht; discriminate). cbn [orb negb rbind].
    unfold grad_products, laplacian. rewrite !Hg, !Hl.
    destruct mo as [m|], mo' as [m'|]; try contradiction; [|reflexivity]. destruct Hm as [Hsh Hk].
    unfold check_mo. rewrite Hsh. cbn [rbind]. destruct (f_shape rho) as [|[|[|[|]]] [|]]; try reflexivity; cbn [rbind]; rewrite Hk; reflexivity.
Qed.
Theorem semilocal I impl d rho rho' mo mo' : forall p,
  all_nodes (fun q => agree_for (fp_type q) d rho rho' mo mo') p ->
  invoke I impl d rho mo p = invoke I impl d rho' mo' p.
Proof.
  induction p as [name ty ns mp sc pa aux mix IH] using func_p_ind'. intros Hall.
  pose proof (all_nodes_here _ _ Hall) as Hh. cbn [invoke].
  destruct (beqb mp DEORBITALIZE).
  { destruct aux as [[|p0 [|p1 l]]|]; try reflexivity. pose proof (all_nodes_aux _ _ _ Hall eq_refl) as Ha.
    specialize (IH _ eq_refl). inversion IH as [|? ? _ IH']; subst. inversion IH' as [|? ? IH1 _]; subst.
    inversion Ha as [|? ? _ Ha']; subst. inversion Ha' as [|? ? Ha1 _]; subst. rewrite (IH1 Ha1). reflexivity. }
  destruct (beqb mp "").
  - destruct aux as [ps|]; [|reflexivity]. destruct mix as [cs|]; [|reflexivity]. specialize (IH ps eq_refl).
    pose proof (all_nodes_aux _ _ ps Hall eq_refl) as Haux. clear Hall Hh. f_equal.
    revert cs IH Haux. induction ps as [|q ps IHps]; intros [|c cs] IH Haux; try reflexivity.
    inversion IH as [|? ? IHq IH']; subst. inversion Haux as [|? ? Hq' Haux']; subst.
    cbn. rewrite (IHq Hq'). destruct (invoke I impl d rho' mo' q); [|reflexivity]. cbn [rbind].
    rewrite (IHps cs IH' Haux'). reflexivity.
  - destruct (impl mp); [|reflexivity]. unfold impl_invoke. rewrite (args_agree _ d rho rho' mo mo' None Hh). reflexivity.
Qed.
Theorem semilocal_top I impl d rho rho' mo mo' p :
  all_nodes (fun q => agree_for (fp_type q) d rho rho' mo mo') p ->
  (fp_type p <> "mgga"%b -> all_nodes (fun q => agree_for (fp_type q) d rho rho' None None) p) ->
  epsilon_xc I impl p d rho mo = epsilon_xc I impl p d rho' mo'.
Proof.
  intros H H'. unfold epsilon_xc. destruct (is_type p "mgga") eqn:E; [apply semilocal, H|].
  apply semilocal, H', is_type_neq, E.
Qed.

(** ** Densities and orbitals as functions of the point

    [rho y ix] is component ix of the density at y.  [at_point d rho x F]: F is what
    differentiation of rho at x gives, as far as the code looks at it. *)
Definition at_point (d : nat) (sh : list nat) (rho : vec -> list nat -> R) (x : vec) (F : field R) : Prop :=
  f_shape F = sh /\ (forall ix, f_val F ix = rho x ix) /\
  (forall ix, has_grad d (fun y => rho y ix) x (f_jac F ix)) /\
  (forall ix, has_hess d (fun y => rho y ix) x (f_hess F ix)).
Definition at_point_c (d : nat) (sh : list nat) (mo : vec -> list nat -> complex) (x : vec) (M : field complex) : Prop :=
  f_shape M = sh /\ (forall ix, f_val M ix = mo x ix) /\
  (forall ix, has_grad d (fun y => fst (mo y ix)) x (fun i => fst (f_jac M ix i))) /\
  (forall ix, has_grad d (fun y => snd (mo y ix)) x (fun i => snd (f_jac M ix i))).

(** ** C18: rotations, reflections and translations *)
Lemma conj_re_nonneg z : 0 <= conj_re z.
Proof. unfold conj_re. nra. Qed.
Lemma conj_re_sum d (g : nat -> complex) :
  rsum d (fun i => conj_re (g i)) = dot d (fun i => fst (g i)) (fun i => fst (g i)) + dot d (fun i => snd (g i)) (fun i => snd (g i)).
Proof. unfold dot. rewrite <- rsum_plus. apply rsum_ext. intros. unfold conj_re. lra. Qed.
Lemma tau_move d N Q (g g' : nat -> nat -> complex) : isometry d Q ->
  (forall n i, (i < d)%nat -> fst (g' n i) = tmulv d Q (fun i => fst (g n i)) i) ->
  (forall n i, (i < d)%nat -> snd (g' n i) = tmulv d Q (fun i => snd (g n i)) i) ->
  orbital_tau d N g = orbital_tau d N g'.
Proof.
  intros HQ H1 H2. unfold orbital_tau. f_equal. apply rsum_ext. intros n _. rewrite !conj_re_sum. f_equal.
  - rewrite <- (tmulv_dot d Q _ _ HQ). symmetry. apply dot_ext; apply H1.
  - rewrite <- (tmulv_dot d Q _ _ HQ). symmetry. apply dot_ext; apply H2.
Qed.

Lemma rotated_agree d Q t x sh sh' rho mo F F' M M' : isometry d Q ->
  at_point d sh rho (move d Q t x) F -> at_point d sh (fun y => rho (move d Q t y)) x F' ->
  at_point_c d sh' mo (move d Q t x) M -> at_point_c d sh' (fun y => mo (move d Q t y)) x M' ->
  agree_mgga d F F' (Some M) (Some M').
Proof.
  intros HQ (S1 & V1 & G1 & H1) (S2 & V2 & G2 & H2) (SM & VM & GM & IM) (SM' & VM' & GM' & IM').
  assert (HQ' := proj1 HQ).
  assert (J : forall ix i, (i < d)%nat -> f_jac F' ix i = tmulv d Q (f_jac F ix) i).
  { intros ix i Hi. apply (has_grad_unique d (fun y => rho (move d Q t y) ix) x); [apply G2| |exact Hi].
    apply (has_grad_move d (fun y => rho y ix) Q t x); [exact HQ'|apply G1]. }
  assert (HH : forall ix i j, (i < d)%nat -> (j < d)%nat -> f_hess F' ix i j = hess_move d Q (f_hess F ix) i j).
  { intros ix i j Hi Hj. apply (has_hess_unique d (fun y => rho (move d Q t y) ix) x); [apply H2| |exact Hi|exact Hj].
    apply (has_hess_move d (fun y => rho y ix) Q t x); [exact HQ'|apply H1]. }
  split; [|split; [|split]].
  - split; [split; [congruence|intros ix; rewrite V1, V2; reflexivity]|].
    intros i j. rewrite <- (tmulv_dot d Q (f_jac F i) (f_jac F j) HQ). symmetry. apply dot_ext; apply J.
  - intros ix. rewrite <- (hess_move_trace d Q (f_hess F ix) HQ). symmetry. apply rsum_ext. intros i Hi. apply HH; exact Hi.
  - congruence.
  - assert (K1 : forall ix i, (i < d)%nat -> fst (f_jac M' ix i) = tmulv d Q (fun i => fst (f_jac M ix i)) i).
    { intros ix i Hi. apply (has_grad_unique d (fun y => fst (mo (move d Q t y) ix)) x _ _ (GM' ix)); [|exact Hi].
      apply (has_grad_move d (fun y => fst (mo y ix)) Q t x); [exact HQ'|apply GM]. }
    assert (K2 : forall ix i, (i < d)%nat -> snd (f_jac M' ix i) = tmulv d Q (fun i => snd (f_jac M ix i)) i).
    { intros ix i Hi. apply (has_grad_unique d (fun y => snd (mo (move d Q t y) ix)) x _ _ (IM' ix)); [|exact Hi].
      apply (has_grad_move d (fun y => snd (mo y ix)) Q t x); [exact HQ'|apply IM]. }
    intros pol. unfold kinetic. rewrite SM, SM'.
    destruct pol, sh' as [|a [|b [|]]]; try reflexivity; rewrite !(tau_move d _ Q _ _ HQ) with (1 := fun n => K1 _) (2 := fun n => K2 _); reflexivity.
Qed.
