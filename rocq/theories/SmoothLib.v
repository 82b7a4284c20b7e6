(** Differentiability of the callable (C39): along differentiable paths of densities and orbitals,
    for single functionals and mixtures. *)
From Coq Require Import Reals List QArith Qreals Bool Arith Lra Lia.
From Verif Require Import Bytes Syntax Parser PostProcess Src Semantics Free Vec Impl ImplThm Smooth.
Import ListNotations.
Open Scope R_scope.

(** ** Statement *)
Definition derives (g : R -> R) : Prop := exists l, derivable_pt_lim g 0 l.
(** A density, and orbitals, that depend on a real number: the shape is fixed, the values and the
    derivatives in space are differentiable at 0. *)
Definition path (F : R -> field R) : Prop :=
  (forall t, f_shape (F t) = f_shape (F 0)) /\ (forall ix, derives (fun t => f_val (F t) ix)) /\
  (forall ix i, derives (fun t => f_jac (F t) ix i)) /\ (forall ix i j, derives (fun t => f_hess (F t) ix i j)).
Definition cpath (F : R -> field complex) : Prop :=
  (forall t, f_shape (F t) = f_shape (F 0)) /\
  (forall ix i, derives (fun t => fst (f_jac (F t) ix i)) /\ derives (fun t => snd (f_jac (F t) ix i))).
Definition at_time (mo : option (R -> field complex)) (t : R) : option (field complex) := option_map (fun m => m t) mo.
Definition opath (mo : option (R -> field complex)) : Prop := forall m, mo = Some m -> cpath m.

(** No functional of the tree is at its density threshold, and those above it have no kink in
    their formula. *)
Definition formula_calm (I : interp) (f : source) (p : func_p) (a : fargs) : Prop :=
  if (fp_nspin p =? 2)%nat then forall prog, generated (src_pol f) = Some prog -> off_kinks I (pol_env (attrs_of p) (to_pol a)) prog
  else forall prog, generated (src_unpol f) = Some prog -> off_kinks I (unpol_env (attrs_of p) (to_unpol a)) prog.
Definition single_calm (I : interp) (f : source) (p : func_p) (d : nat) (rho : field R) (mo : option (field complex)) : Prop :=
  forall a, rho_to_arguments p d rho mo None = Ok a ->
  total (fp_nspin p) (fa_dens a) <> dens_threshold (fp_scal p) /\
  (dens_threshold (fp_scal p) < total (fp_nspin p) (fa_dens a) -> formula_calm I f p a).
Fixpoint tree_calm (I : interp) (impl : modules) (d : nat) (rho : field R) (mo : option (field complex)) (p : func_p) {struct p} : Prop :=
  match p with
  | FuncP _ _ _ maple _ _ aux _ =>
      if beqb maple "" then
        match aux with
        | Some ps => (fix go (ps : list func_p) : Prop := match ps with q :: ps => tree_calm I impl d rho mo q /\ go ps | [] => True end) ps
        | None => True
        end
      else match impl maple with Some f => single_calm I f p d rho mo | None => True end
  end.
Definition differentiable (F : R -> res (option R)) : Prop :=
  exists g, derives g /\ near (fun t => F t = Ok (Some (g t))).
Definition differentiable_off_kinks (I : interp) (impl : modules) (p : func_p) : Prop :=
  forall d rho mo v, path rho -> opath mo ->
  epsilon_xc I impl p d (rho 0) (at_time mo 0) = Ok (Some v) ->
  tree_calm I impl d (rho 0) (if is_type p "mgga" then at_time mo 0 else None) p ->
  differentiable (fun t => epsilon_xc I impl p d (rho t) (at_time mo t)).

(** ** Sums and products *)
Lemma der_const c : derives (fun _ => c).
Proof. exists 0. exact (derivable_pt_lim_const c 0). Qed.
Lemma der_plus f g : derives f -> derives g -> derives (fun t => f t + g t).
Proof. intros [l H] [m K]. eexists. exact (derivable_pt_lim_plus f g 0 l m H K). Qed.
Lemma der_mult f g : derives f -> derives g -> derives (fun t => f t * g t).
Proof. intros [l H] [m K]. eexists. exact (derivable_pt_lim_mult f g 0 l m H K). Qed.
Lemma der_ext f g : (forall t, f t = g t) -> derives f -> derives g.
Proof. intros E [l H]. exists l. exact (deriv_ext f g 0 l E H). Qed.
Lemma der_quot f g : derives f -> derives g -> g 0 <> 0 -> derives (fun t => f t / g t).
Proof. intros [l H] [m K] N. exact (deriv_quot f g 0 l m H K N). Qed.
Lemma der_rsum n : forall f : R -> nat -> R, (forall i, derives (fun t => f t i)) -> derives (fun t => rsum n (f t)).
Proof. induction n as [|n IH]; intros f H; cbn [rsum]; [apply der_const|]. exact (der_plus _ _ (IH f H) (H n)). Qed.
Lemma der_dot d (u v : R -> vec) : (forall i, derives (fun t => u t i)) -> (forall i, derives (fun t => v t i)) -> derives (fun t => dot d (u t) (v t)).
Proof. intros Hu Hv. unfold dot. apply (der_rsum d (fun t i => u t i * v t i)). intros i. exact (der_mult _ _ (Hu i) (Hv i)). Qed.
Lemma der_tau d N (j : R -> nat -> nat -> complex) : (forall n i, derives (fun t => fst (j t n i)) /\ derives (fun t => snd (j t n i))) ->
  derives (fun t => orbital_tau d N (j t)).
Proof.
  intros H. unfold orbital_tau. apply der_quot; [|apply der_const|lra].
  apply (der_rsum N (fun t n => rsum d (fun i => conj_re (j t n i)))). intros n. apply (der_rsum d (fun t i => conj_re (j t n i))). intros i.
  destruct (H n i) as [A B]. apply (der_ext (fun t => fst (j t n i) * fst (j t n i) + snd (j t n i) * snd (j t n i))).
  - intros t. unfold conj_re. ring.
  - apply der_plus; apply der_mult; assumption.
Qed.

(** ** The arguments of a formula *)
Definition ospath (o : R -> option R) : Prop := (forall t, o t = None) \/ exists g, derives g /\ forall t, o t = Some (g t).
Definition is_pol (x : spinval) : bool := match x with SPol _ _ => true | SUnpol _ => false end.
Record moving (a : R -> fargs) : Prop := {
  mv_kind : forall t, is_pol (fa_dens (a t)) = is_pol (fa_dens (a 0));
  mv_r0 : derives (fun t => p_r0 (to_pol (a t))); mv_r1 : derives (fun t => p_r1 (to_pol (a t)));
  mv_s0 : ospath (fun t => p_s0 (to_pol (a t))); mv_s1 : ospath (fun t => p_s1 (to_pol (a t))); mv_s2 : ospath (fun t => p_s2 (to_pol (a t)));
  mv_l0 : ospath (fun t => p_l0 (to_pol (a t))); mv_l1 : ospath (fun t => p_l1 (to_pol (a t)));
  mv_t0 : ospath (fun t => p_tau0 (to_pol (a t))); mv_t1 : ospath (fun t => p_tau1 (to_pol (a t))) }.
Lemma os_none : ospath (fun _ => None). Proof. left. reflexivity. Qed.
Lemma os_some g : derives g -> ospath (fun t => Some (g t)). Proof. right. exists g. split; [assumption|reflexivity]. Qed.

Definition dens_of (rho : field R) : spinval := match f_shape rho with [] => SUnpol (f_val rho []) | _ => SPol (f_val rho [0%nat]) (f_val rho [1%nat]) end.
Lemma grads_path d b rho : path rho -> derives (fun t => grad0 (grad_products d b (rho t))) /\ derives (fun t => grad1 (grad_products d b (rho t))) /\ derives (fun t => grad2 (grad_products d b (rho t))).
Proof.
  intros (_ & _ & J & _). destruct b; cbn [grad_products grad0 grad1 grad2]; (split; [|split]); apply der_dot; intros i; apply J.
Qed.
Lemma lap_path d b rho : path rho -> derives (fun t => spin0 (laplacian d b (rho t))) /\ derives (fun t => spin1 (laplacian d b (rho t))).
Proof.
  intros (_ & _ & _ & H). destruct b; unfold laplacian; cbn [spin0 spin1]; split;
    match goal with |- derives (fun t => rsum d (fun i => f_hess (rho t) ?ix i i)) => apply (der_rsum d (fun t i => f_hess (rho t) ix i i)) end; intros i; apply H.
Qed.
Lemma kin_path d b m : cpath m -> derives (fun t => spin0 (kinetic d b (m t))) /\ derives (fun t => spin1 (kinetic d b (m t))).
Proof.
  intros (S & H).
  assert (T : forall N ix, derives (fun t => orbital_tau d N (fun n => f_jac (m t) (ix n)))).
  { intros N ix. apply (der_tau d N (fun t n => f_jac (m t) (ix n))). intros n i. apply H. }
  assert (E : forall t, kinetic d b (m t) = match b, f_shape (m 0) with
    | true, [_; N] => SPol (orbital_tau d N (fun n => f_jac (m t) [0%nat; n])) (orbital_tau d N (fun n => f_jac (m t) [1%nat; n]))
    | _, N :: _ => SUnpol (orbital_tau d N (fun n => f_jac (m t) [n])) | _, [] => SUnpol 0 end).
  { intros t. unfold kinetic. rewrite (S t). reflexivity. }
  split; (eapply der_ext; [intros t; rewrite E; reflexivity|]); destruct b, (f_shape (m 0)) as [|N [|N' [|]]]; cbn [spin0 spin1];
    try apply der_const; first [apply (T _ (fun n => [n]))|apply (T _ (fun n => [0%nat; n]))|apply (T _ (fun n => [1%nat; n]))].
Qed.

Lemma args_path p d rho mo a : path rho -> opath mo -> rho_to_arguments p d (rho 0) (at_time mo 0) None = Ok a ->
  exists b, b 0 = a /\ (forall t, rho_to_arguments p d (rho t) (at_time mo t) None = Ok (b t)) /\ moving b.
Proof.
  intros HP HM. pose proof HP as (S & V & J & H).
  pose (pz := match f_shape (rho 0) with [] => false | _ => true end).
  assert (K : forall t, is_pol (dens_of (rho t)) = pz) by (intros t; unfold dens_of, pz; rewrite (S t); destruct (f_shape (rho 0)); reflexivity).
  assert (D0 : derives (fun t => spin0 (dens_of (rho t)))) by (unfold dens_of; eapply der_ext; [intros t; rewrite (S t); reflexivity|]; destruct (f_shape (rho 0)); apply V).
  assert (D1 : derives (fun t => spin1 (dens_of (rho t)))) by (unfold dens_of; eapply der_ext; [intros t; rewrite (S t); reflexivity|]; destruct (f_shape (rho 0)); apply V).
  pose proof (grads_path d pz rho HP) as (G0 & G1 & G2). pose proof (lap_path d pz rho HP) as (L0 & L1).
  assert (E : forall t, rho_to_arguments p d (rho t) (at_time mo t) None =
    if negb (is_type p "lda" || is_type p "gga" || is_type p "mgga") then Err ValueError else
    rbind (if is_type p "mgga" then match mo with None => Err ValueError | Some _ => Ok tt end else Ok tt) (fun _ =>
    rbind (match f_shape (rho 0) with [] | [2%nat] => Ok tt | _ => Err RuntimeError end) (fun _ =>
    if ((fp_nspin p =? 1) && pz) || ((fp_nspin p =? 2) && negb pz) then Err ValueError else
    if is_type p "lda" then Ok (ALda (dens_of (rho t))) else
    if is_type p "gga" then Ok (AGga (dens_of (rho t)) (grad_products d pz (rho t))) else
    match mo with
    | None => Err TypeError
    | Some m => rbind (check_mo d pz (m 0)) (fun _ => Ok (AMgga (dens_of (rho t)) (grad_products d pz (rho t)) (laplacian d pz (rho t)) (kinetic d pz (m t))))
    end))).
  { intros t. unfold rho_to_arguments, dens_of, pz. rewrite (S t). destruct (negb _); [reflexivity|].
    destruct (is_type p "mgga"), mo as [m|]; cbn [at_time option_map rbind]; try reflexivity;
      destruct (f_shape (rho 0)) as [|[|[|[|n]]] [|n' l]]; cbn [rbind]; try reflexivity;
      unfold check_mo; try rewrite (proj1 (HM m eq_refl) t); reflexivity. }
  rewrite E. destruct (negb _); [discriminate|].
  set (okm := if is_type p "mgga" then match mo with None => Err ValueError | Some _ => Ok tt end else Ok tt) in *.
  destruct okm as [[]|]; cbn [rbind] in *; [|discriminate].
  set (oks := match f_shape (rho 0) with [] | [2%nat] => Ok tt | _ => Err RuntimeError end) in *.
  destruct oks as [[]|]; cbn [rbind] in *; [|discriminate].
  destruct (_ || _); [discriminate|].
  assert (KK : forall t, is_pol (dens_of (rho t)) = is_pol (dens_of (rho 0))) by (intros t; rewrite !K; reflexivity).
  destruct (is_type p "lda"); [|destruct (is_type p "gga"); [|destruct mo as [m|]; [|discriminate]; destruct (check_mo d pz (m 0)); cbn [rbind] in *; [|discriminate]]];
    intros X; injection X as <-; (eexists; split; [|split; [exact E|]]); try reflexivity;
    (constructor; cbn [to_pol fa_dens option_map p_r0 p_r1 p_s0 p_s1 p_s2 p_l0 p_l1 p_tau0 p_tau1]; try assumption; try apply os_none; apply os_some; try assumption);
    apply (kin_path d pz m (HM m eq_refl)).
Qed.

(** ** Environments *)
Definition vpath (F : R -> option val) : Prop := (forall t, F t = None) \/ exists g, derives g /\ forall t, F t = Some (VR (g t)).
Lemma vpath_smooth F : vpath F -> F 0 <> None -> vsmooth F.
Proof. intros [H|(g & (l & Hg) & H)] N; [contradiction (N (H 0))|]. apply (vs_real F g l Hg). apply near_all. exact H. Qed.
Lemma vpath_none F t : vpath F -> (F t = None <-> F 0 = None).
Proof. intros [H|(g & _ & H)]; rewrite !H; split; congruence. Qed.
Lemma bind_path (l : list (bstr * (R -> option R))) A : Forall (fun e => ospath (snd e)) l ->
  forall x, vpath (fun t => bind_args (map (fun e => (fst e, snd e t)) l) (attr_env A) x).
Proof.
  intros H x. induction H as [|[y o] l Ho _ IH]; cbn [map bind_args fst snd].
  - unfold attr_env. destruct (attr_name x); [|left; reflexivity]. destruct (A x) as [c|]; [|left; reflexivity].
    right. exists (fun _ => c). split; [apply der_const|reflexivity].
  - unfold upd. destruct (beqb x y); [|exact IH]. cbn [snd] in Ho. destruct Ho as [Ho|(g & Hg & Ho)].
    + left. intros t. rewrite Ho. reflexivity.
    + right. exists g. split; [exact Hg|]. intros t. rewrite Ho. reflexivity.
Qed.
Lemma pol_path A a : moving a -> forall x, vpath (fun t => pol_env A (to_pol (a t)) x).
Proof.
  intros M. apply (bind_path [("r0"%b, fun t => Some (p_r0 (to_pol (a t)))); ("r1"%b, fun t => Some (p_r1 (to_pol (a t))));
    ("s0"%b, fun t => p_s0 (to_pol (a t))); ("s1"%b, fun t => p_s1 (to_pol (a t))); ("s2"%b, fun t => p_s2 (to_pol (a t)));
    ("l0"%b, fun t => p_l0 (to_pol (a t))); ("l1"%b, fun t => p_l1 (to_pol (a t))); ("tau0"%b, fun t => p_tau0 (to_pol (a t))); ("tau1"%b, fun t => p_tau1 (to_pol (a t)))]).
  repeat (apply Forall_cons; [cbn [snd]|]); try apply Forall_nil; try apply os_some; apply M.
Qed.
Lemma unpol_path A a : moving a -> forall x, vpath (fun t => unpol_env A (to_unpol (a t)) x).
Proof.
  intros M. apply (bind_path [("r0"%b, fun t => Some (u_r (to_unpol (a t)))); ("s0"%b, fun t => u_s (to_unpol (a t)));
    ("l0"%b, fun t => u_l (to_unpol (a t))); ("tau0"%b, fun t => u_tau (to_unpol (a t)))]).
  assert (F : forall t, u_s (to_unpol (a t)) = p_s0 (to_pol (a t)) /\ u_l (to_unpol (a t)) = p_l0 (to_pol (a t)) /\ u_tau (to_unpol (a t)) = p_tau0 (to_pol (a t))) by (intros t; destruct (a t); repeat split).
  assert (X : forall o o' : R -> option R, (forall t, o t = o' t) -> ospath o' -> ospath o).
  { intros o o' Eo [H|(g & Hg & H)]; [left|right; exists g; split; [exact Hg|]]; intros t; rewrite Eo; apply H. }
  repeat (apply Forall_cons; [cbn [snd]|]); try apply Forall_nil.
  - apply os_some. exact (mv_r0 a M).
  - exact (X _ _ (fun t => proj1 (F t)) (mv_s0 a M)).
  - exact (X _ _ (fun t => proj1 (proj2 (F t))) (mv_l0 a M)).
  - exact (X _ _ (fun t => proj2 (proj2 (F t))) (mv_t0 a M)).
Qed.
Lemma missing_same e e' l : (forall x, e x = None <-> e' x = None) -> first_missing e l = first_missing e' l.
Proof.
  intros H. induction l as [|x l IH]; cbn [first_missing]; [reflexivity|]. unfold missing.
  destruct (e x) eqn:E, (e' x) eqn:E'; try rewrite IH; try reflexivity; exfalso; pose proof (H x) as [A B]; [rewrite (B E') in E|rewrite (A E) in E']; discriminate.
Qed.
Lemma run_smooth I src (e : R -> env) v : ops_smooth I -> (forall x, vpath (fun t => e t x)) ->
  run_code I src (e 0) = Ok (Some v) -> (forall prog, generated src = Some prog -> off_kinks I (e 0) prog) ->
  differentiable (fun t => run_code I src (e t)).
Proof.
  intros HI He H C. unfold run_code in *. destruct (generated src) as [prog|]; [|discriminate].
  destruct (existsb _ _); [discriminate|]. destruct (first_missing (e 0) (free prog)) eqn:F; [discriminate|]. injection H as H.
  destruct (result_smooth I HI e prog) as (g & l & Hg & N).
  - intros x Hx. exact (vpath_smooth _ (He x) Hx).
  - apply C. reflexivity.
  - congruence.
  - exists g. split; [exists l; exact Hg|]. eapply near_mono; [|exact N]. intros t Ht. cbv beta.
    rewrite (missing_same (e t) (e 0)), F, Ht; [reflexivity|]. intros x. exact (vpath_none _ t (He x)).
Qed.
Lemma run_missing I src (e : R -> env) u t : (forall x, vpath (fun t => e t x)) -> run_code I src (e 0) = Ok u -> exists w, run_code I src (e t) = Ok w.
Proof.
  intros He H. unfold run_code in *. destruct (generated src) as [prog|]; [|discriminate]. destruct (existsb _ _); [discriminate|].
  rewrite (missing_same (e t) (e 0)) by (intros x; exact (vpath_none _ t (He x))). destruct (first_missing (e 0) (free prog)); [discriminate|eauto].
Qed.
Lemma call_env I f p b : moving b ->
  (forall t, call_code I f p (b t) = Err TypeError) \/
  (if (fp_nspin p =? 2)%nat then forall t, call_code I f p (b t) = run_code I (src_pol f) (pol_env (attrs_of p) (to_pol (b t)))
   else forall t, call_code I f p (b t) = run_code I (src_unpol f) (unpol_env (attrs_of p) (to_unpol (b t)))).
Proof.
  intros M. pose proof (mv_kind b M) as K. unfold call_code. destruct (fp_nspin p =? 2)%nat, (is_pol (fa_dens (b 0))).
  - right. intros t. specialize (K t). destruct (fa_dens (b t)); [discriminate|reflexivity].
  - left. intros t. specialize (K t). destruct (fa_dens (b t)); [reflexivity|discriminate].
  - left. intros t. specialize (K t). destruct (fa_dens (b t)); [discriminate|reflexivity].
  - right. intros t. specialize (K t). destruct (fa_dens (b t)); [reflexivity|discriminate].
Qed.
Lemma call_ok I f p b u t : moving b -> call_code I f p (b 0) = Ok u -> exists w, call_code I f p (b t) = Ok w.
Proof.
  intros M H. destruct (call_env I f p b M) as [E|E]; [rewrite E in H; discriminate|]. destruct (fp_nspin p =? 2)%nat; rewrite E in H |- *.
  - exact (run_missing I _ (fun t => pol_env (attrs_of p) (to_pol (b t))) u t (pol_path _ b M) H).
  - exact (run_missing I _ (fun t => unpol_env (attrs_of p) (to_unpol (b t))) u t (unpol_path _ b M) H).
Qed.
Lemma call_smooth I f p b v : ops_smooth I -> moving b -> call_code I f p (b 0) = Ok (Some v) -> formula_calm I f p (b 0) ->
  differentiable (fun t => call_code I f p (b t)).
Proof.
  intros HI M H C. unfold formula_calm in C. destruct (call_env I f p b M) as [E|E]; [rewrite E in H; discriminate|].
  assert (X : forall F G : R -> res (option R), (forall t, F t = G t) -> differentiable G -> differentiable F).
  { intros F G EE (g & Hg & N). exists g. split; [exact Hg|]. eapply near_mono; [|exact N]. intros t Ht. cbv beta. rewrite EE. exact Ht. }
  destruct (fp_nspin p =? 2)%nat; (apply (X _ _ E); rewrite E in H).
  - exact (run_smooth I _ (fun t => pol_env (attrs_of p) (to_pol (b t))) v HI (pol_path _ b M) H C).
  - exact (run_smooth I _ (fun t => unpol_env (attrs_of p) (to_unpol (b t))) v HI (unpol_path _ b M) H C).
Qed.
Lemma total_path n b : moving b -> derives (fun t => total n (fa_dens (b t))).
Proof.
  intros M. unfold total. destruct (n =? 1)%nat; [exact (mv_r0 b M)|]. pose proof (mv_kind b M) as K.
  destruct (is_pol (fa_dens (b 0))).
  - apply (der_ext (fun t => p_r0 (to_pol (b t)) + p_r1 (to_pol (b t)))).
    + intros t. specialize (K t). cbn [to_pol p_r0 p_r1]. destruct (fa_dens (b t)); [discriminate|]. cbn [spin0 spin1]. ring.
    + apply der_plus; [exact (mv_r0 b M)|exact (mv_r1 b M)].
  - apply (der_ext (fun t => p_r0 (to_pol (b t)))); [|exact (mv_r0 b M)].
    intros t. specialize (K t). cbn [to_pol p_r0]. destruct (fa_dens (b t)); [reflexivity|discriminate].
Qed.

Theorem single_smooth I f p d rho mo v : ops_smooth I -> path rho -> opath mo ->
  impl_invoke I f p d (rho 0) (at_time mo 0) None = Ok (Some v) -> single_calm I f p d (rho 0) (at_time mo 0) ->
  differentiable (fun t => impl_invoke I f p d (rho t) (at_time mo t) None).
Proof.
  intros HI HP HM H C. unfold impl_invoke in *. destruct (rho_to_arguments p d (rho 0) (at_time mo 0) None) as [a|] eqn:Ea; cbn [rbind] in H; [|discriminate].
  destruct (C a Ea) as [Ne Cf]. destruct (args_path p d rho mo a HP HM Ea) as (b & <- & Eb & M).
  destruct (call_code I f p (b 0)) as [u|] eqn:Eu; cbn [rbind] in H; [|discriminate].
  set (thr := dens_threshold (fp_scal p)) in *. pose proof (total_path (fp_nspin p) b M) as (l & Hl). set (n := fun t => total (fp_nspin p) (fa_dens (b t))) in *.
  assert (Hd : derivable_pt_lim (fun t => n t - thr) 0 (l - 0)) by exact (derivable_pt_lim_minus n (fct_cte thr) 0 l 0 Hl (derivable_pt_lim_const thr 0)).
  destruct (Rlt_dec (n 0) thr) as [L|L].
  - exists (fun _ => 0). split; [apply der_const|]. eapply near_mono; [|apply (near_neg (fun t => n t - thr) _ Hd); lra].
    intros t Ht. cbv beta in *. rewrite Eb. cbn [rbind]. destruct (call_ok I f p b u t M Eu) as (w & ->). cbn [rbind].
    fold (n t). destruct (Rlt_dec (n t) thr); [reflexivity|lra].
  - assert (G : thr < n 0) by (unfold n in *; lra). fold (n 0) in H. destruct (Rlt_dec (n 0) thr); [contradiction|]. injection H as ->.
    destruct (call_smooth I f p b v HI M Eu (Cf G)) as (g & Hg & N). exists g. split; [exact Hg|].
    eapply near_mono; [|apply (near_and _ _ N (near_pos (fun t => n t - thr) _ Hd ltac:(lra)))].
    intros t [Ht Hn]. cbv beta in *. rewrite Eb. cbn [rbind]. rewrite Ht. cbn [rbind]. fold (n t). destruct (Rlt_dec (n t) thr); [lra|reflexivity].
Qed.

Theorem invoke_smooth I impl d rho mo : ops_smooth I -> path rho -> opath mo ->
  forall p v, invoke I impl d (rho 0) (at_time mo 0) p = Ok (Some v) -> tree_calm I impl d (rho 0) (at_time mo 0) p ->
  differentiable (fun t => invoke I impl d (rho t) (at_time mo t) p).
Proof.
  intros HI HP HM. induction p as [name ty ns mp sc pa aux mix IH] using func_p_ind'. intros v H C.
  cbn [invoke tree_calm] in *. destruct (beqb mp DEORBITALIZE) eqn:Ed.
  { destruct aux as [[|q [|q' l]]|]; try discriminate. destruct (invoke I impl d (rho 0) (at_time mo 0) q'); discriminate. }
  destruct (beqb mp "") eqn:Em.
  - destruct aux as [ps|]; [|discriminate]. destruct mix as [cs|]; [|discriminate]. specialize (IH ps eq_refl).
    match type of C with ?g ps => set (cl := g) in * end.
    pose (go := fun t => fix go (ps : list func_p) (cs : list R) : res (list (option R)) :=
                     match ps, cs with
                     | q :: ps, c :: cs =>
                         v <- invoke I impl d (rho t) (at_time mo t) q;; vs <- go ps cs;; Ok (oscale c v :: vs)
                     | _, _ => Ok []
                     end).
    change (rbind (go 0 ps cs) (fun vs => Ok (py_sum vs)) = Ok (Some v)) in H.
    change (differentiable (fun t => rbind (go t ps cs) (fun vs => Ok (py_sum vs)))).
    clear Ed Em. revert cs v H C IH. induction ps as [|q ps IHps]; intros [|c cs] v H C IH.
    1,2,3: exists (fun _ => 0); split; [apply der_const|apply near_all; reflexivity].
    destruct C as [Cq C]. inversion IH as [|? ? IHq IH']; subst.
    change (rbind (v <- invoke I impl d (rho 0) (at_time mo 0) q;; vs <- go 0 ps cs;; Ok (oscale c v :: vs)) (fun vs => Ok (py_sum vs)) = Ok (Some v)) in H.
    destruct (invoke I impl d (rho 0) (at_time mo 0) q) as [[x|]|] eqn:Ex; cbn [rbind] in H; [| |discriminate].
    2:{ destruct (go 0 ps cs); cbn [rbind] in H; [|discriminate]. rewrite py_sum_cons in H. discriminate. }
    destruct (go 0 ps cs) as [vs|] eqn:Ev; cbn [rbind] in H; [|discriminate]. rewrite py_sum_cons in H.
    destruct (py_sum vs) as [y|] eqn:Ey; [|discriminate].
    destruct (IHq x eq_refl Cq) as (g & Hg & Ng). destruct (IHps cs y) as (h & Hh & Nh); [rewrite Ev; cbn [rbind]; rewrite Ey; reflexivity|exact C|exact IH'|].
    exists (fun t => c * g t + h t). split; [apply der_plus; [apply der_mult; [apply der_const|exact Hg]|exact Hh]|].
    eapply near_mono; [|exact (near_and _ _ Ng Nh)]. intros t [Eg Eh]. cbv beta in *.
    change (rbind (v <- invoke I impl d (rho t) (at_time mo t) q;; vs <- go t ps cs;; Ok (oscale c v :: vs)) (fun vs => Ok (py_sum vs)) = Ok (Some (c * g t + h t))).
    rewrite Eg. cbn [rbind]. destruct (go t ps cs) as [ws|]; cbn [rbind] in *; [|discriminate]. injection Eh as Eh. rewrite py_sum_cons, Eh. reflexivity.
  - destruct (impl mp) as [f|]; [|discriminate]. exact (single_smooth I f _ d rho mo v HI HP HM H C).
Qed.

Theorem callable_smooth I impl p : ops_smooth I -> differentiable_off_kinks I impl p.
Proof.
  intros HI d rho mo v HP HM H C. unfold epsilon_xc in *. destruct (is_type p "mgga").
  - exact (invoke_smooth I impl d rho mo HI HP HM p v H C).
  - exact (invoke_smooth I impl d rho None HI HP ltac:(discriminate) p v H C).
Qed.
