(** Properties of the evaluation path: C07, C11, C12, C16, C17, C18, C19, C20, C30, C31.
    Each theorem is followed by an example meeting its hypotheses. *)
From Coq Require Import Reals List Bool QArith Arith Lra Lia.
From Verif Require Import Bytes Syntax Parser PostProcess Src Semantics Free Vec Deriv Impl ImplThm ImplThm2 ImplThm3 ImplThm4
  Records RecordsThm RecordsThm2 RecordsThm3 RecordsThm4 Samples.
Import ListNotations.
Open Scope R_scope.

(** ** C07: the callable of a single functional returns exactly 0 where the total density n is
    strictly below the density threshold, and the value v of its formula elsewhere. *)
Theorem C07_small_density_screening :
  forall I impl p f d rho mo a v,
  single impl p f -> family (fp_type p) -> nspin_ok p ->
  rho_to_arguments p d rho mo None = Ok a -> call_code I f p a = Ok v ->
  forall n, (fp_nspin p = 1%nat -> n = f_val rho []) -> (fp_nspin p = 2%nat -> n = f_val rho [0%nat] + f_val rho [1%nat]) ->
  (n < dens_threshold (fp_scal p) -> epsilon_xc I impl p d rho mo = Ok (Some 0)) /\
  (dens_threshold (fp_scal p) <= n -> epsilon_xc I impl p d rho mo = Ok v).
Proof. exact screening_top. Qed.
Print Assumptions C07_small_density_screening.

(** The sum of the channels decides: 3 + 2 is above the threshold 1/100, and the value of the
    toy formula r0 + 3 r1 is returned. *)
Example C07_example :
  epsilon_xc no_ops toy_impl (leaf "gga" 2) 3 field_pol None = Ok (Some (lin_pol origin [0%nat] + 3 * lin_pol origin [1%nat])).
Proof.
  assert (S : single toy_impl (leaf "gga" 2) toy) by (split; [discriminate|split; [discriminate|reflexivity]]).
  edestruct (C07_small_density_screening no_ops toy_impl (leaf "gga" 2) toy 3 field_pol None) with (n := 3 + 2) as [_ T];
    [exact S|right; left; reflexivity|right; reflexivity|reflexivity|apply (toy_pol (leaf "gga" 2)); reflexivity|discriminate| |].
  { intros _. cbn. unfold lin_pol, origin. lra. }
  apply T. cbn. lra.
Qed.

(** ** C11: one level of a mixture is the weighted sum of its components' values. *)
Theorem C11_mixture_is_weighted_sum :
  forall I impl d rho mo p ps cs vs,
  fp_maple p = ""%b -> fp_aux p = Some ps -> fp_mix p = Some cs -> length cs = length ps ->
  Forall2 (fun q v => invoke I impl d rho mo q = Ok (Some v)) ps vs ->
  invoke I impl d rho mo p = Ok (Some (rsum (length ps) (fun i => nth i cs 0 * nth i vs 0))).
Proof. exact mixture_step. Qed.
Print Assumptions C11_mixture_is_weighted_sum.
(** For a whole tree: the sum over its single functionals, each weighted with the product of the
    coefficients on the way to it, in libxc's order. *)
Theorem C11_mixture_tree :
  forall I impl d rho mo (val : func_p -> R) p w, tree_ok p ->
  (forall w' q, In (w', q) (leaves w p) -> leaf_value I impl d rho mo q = Ok (Some (val q))) ->
  exists v, invoke I impl d rho mo p = Ok (Some v) /\ w * v = wsum val (leaves w p).
Proof. exact mixture_sum. Qed.
Print Assumptions C11_mixture_tree.
(** The other direction: a failing component makes the mixture fail. *)
Theorem C11_mixture_fails :
  forall I impl d rho mo p ps cs q e,
  fp_maple p = ""%b -> fp_aux p = Some ps -> fp_mix p = Some cs -> length cs = length ps ->
  In q ps -> invoke I impl d rho mo q = Err e -> exists e', invoke I impl d rho mo p = Err e'.
Proof. exact mixture_fails. Qed.
Print Assumptions C11_mixture_fails.

(** 1/4 toy + 3 (2 toy + toy) at density 5, where toy is 10. *)
Example C11_example :
  invoke no_ops toy_impl 3 field_unpol None
    (sample "gga" 1 "" (Some [leaf "gga" 1; sample "gga" 1 "" (Some [leaf "gga" 1; leaf "lda" 1]) (Some [2; 1])]) (Some [/ 4; 3]))
  = Ok (Some (/ 4 * 10 + 3 * (2 * 10 + 1 * 10))).
Proof.
  assert (L : forall t, family t -> t <> "mgga"%b -> invoke no_ops toy_impl 3 field_unpol None (leaf t 1) = Ok (Some 10)).
  { intros t Ht Hm. change (impl_invoke no_ops toy (leaf t 1) 3 field_unpol None None = Ok (Some 10)).
    rewrite impl_invoke_eq; [|exact Ht|left; reflexivity|split; [reflexivity|split; [discriminate|intros E; elim (Hm E)]]].
    rewrite (toy_unpol (leaf t 1) _ 5 eq_refl).
    - cbn. unfold total_density, lin_unpol, origin. cbn. unfold lin_unpol, origin. destruct (Rlt_dec _ _); [lra|]. do 2 f_equal; lra.
    - rewrite dens_expected. cbn. f_equal. unfold lin_unpol, origin. lra. }
  assert (Lg : invoke no_ops toy_impl 3 field_unpol None (leaf "gga" 1) = Ok (Some 10)) by (apply L; [right; left; reflexivity|discriminate]).
  assert (Ll : invoke no_ops toy_impl 3 field_unpol None (leaf "lda" 1) = Ok (Some 10)) by (apply L; [left; reflexivity|discriminate]).
  assert (Li : invoke no_ops toy_impl 3 field_unpol None (sample "gga" 1 "" (Some [leaf "gga" 1; leaf "lda" 1]) (Some [2; 1])) = Ok (Some (2 * 10 + 1 * 10))).
  { rewrite (C11_mixture_is_weighted_sum no_ops toy_impl 3 field_unpol None (sample "gga" 1 "" (Some [leaf "gga" 1; leaf "lda" 1]) (Some [2; 1]))
      [leaf "gga" 1; leaf "lda" 1] [2; 1] [10; 10] eq_refl eq_refl eq_refl eq_refl).
    - cbn. do 2 f_equal. lra.
    - constructor; [exact Lg|]. constructor; [exact Ll|constructor]. }
  rewrite (C11_mixture_is_weighted_sum no_ops toy_impl 3 field_unpol None
    (sample "gga" 1 "" (Some [leaf "gga" 1; sample "gga" 1 "" (Some [leaf "gga" 1; leaf "lda" 1]) (Some [2; 1])]) (Some [/ 4; 3]))
    [leaf "gga" 1; sample "gga" 1 "" (Some [leaf "gga" 1; leaf "lda" 1]) (Some [2; 1])] [/ 4; 3]
    [10; 2 * 10 + 1 * 10] eq_refl eq_refl eq_refl eq_refl).
  - cbn. do 2 f_equal. lra.
  - constructor; [exact Lg|]. constructor; [exact Li|constructor].
Qed.

(** ** C12 is false.  libxc gives a deorbitalized functional two components and no mixing
    coefficients; the library evaluates it as a mixture with whatever coefficients it finds in
    memory (the argument [heap] of the model), and the branch meant for it cannot succeed. *)
Theorem C12_deorbitalized_value_refuted :
  ~ (forall rg heap f p f0 f1 p0 p1 impl m0 d rho mo g v,
       func_of rg heap f = Ok p -> x_aux f = Some [f0; f1] -> x_mix f = None ->
       func_of rg heap f0 = Ok p0 -> func_of rg heap f1 = Ok p1 -> fp_type p0 = "mgga"%b -> fp_type p1 = "mgga"%b ->
       impl (fp_maple p0) = Some m0 ->
       invoke no_ops impl d rho mo p1 = Ok (Some g) ->
       impl_invoke no_ops m0 p0 d rho mo (Some g) = Ok (Some v) ->
       epsilon_xc no_ops impl p d rho mo = Ok (Some v)).
Proof.
  intros H. destruct deorbitalized_wrong as (p & Ep & V1 & V0 & E).
  specialize (H deo_rg zeros xc_deorbitalized p _ _ p_tau p_ked deo_impl tau_formula 3%nat field_unpol (Some mo_unpol) 10 50
    Ep eq_refl eq_refl (proj1 deo_components) (proj2 deo_components) eq_refl eq_refl eq_refl V1 V0).
  rewrite H in E. injection E as E. lra.
Qed.
Print Assumptions C12_deorbitalized_value_refuted.
Theorem C12_what_is_computed_instead :
  forall rg heap I impl d rho mo f f0 f1 ty p0 p1 a b v0 v1,
  ~ special (x_name f) -> x_aux f = Some [f0; f1] -> x_mix f = None -> name_to_type (x_name f) = Ok ty ->
  func_of rg heap f0 = Ok p0 -> func_of rg heap f1 = Ok p1 -> heap 2%nat = [a; b] ->
  invoke I impl d rho mo p0 = Ok (Some v0) -> invoke I impl d rho mo p1 = Ok (Some v1) ->
  exists p, func_of rg heap f = Ok p /\ invoke I impl d rho mo p = Ok (Some (a * v0 + b * v1)).
Proof. exact deorbitalized_value. Qed.
Print Assumptions C12_what_is_computed_instead.
(** A record that says DEORBITALIZE is never evaluated successfully; one obtained from libxc has
    no components, and fails for that reason. *)
Theorem C12_deorbitalize_branch_fails :
  forall I impl d rho mo p, fp_maple p = DEORBITALIZE -> exists e, invoke I impl d rho mo p = Err e.
Proof. exact deorbitalize_fails. Qed.
Print Assumptions C12_deorbitalize_branch_fails.
Theorem C12_deorbitalize_branch_unreachable :
  forall rg heap f p, func_of rg heap f = Ok p -> fp_maple p = DEORBITALIZE -> fp_aux p = None.
Proof. exact deorbitalize_unreachable. Qed.
Print Assumptions C12_deorbitalize_branch_unreachable.
(** The experimental interface would compute the right value from such a record. *)
Theorem C12_experimental_deorbitalize :
  forall I impl rho m p p0 p1 rest f g (b : bool),
  fp_maple p = DEORBITALIZE -> fp_aux p = Some (p0 :: p1 :: rest) ->
  regular (if b then 2%nat else 1%nat) p0 -> beqb (fp_maple p0) "" = false -> impl (fp_maple p0) = Some f ->
  fp_type p0 = "mgga"%b -> f_shape rho = (if b then [2%nat] else []) ->
  exp_make I impl rho (Some m) None p1 = Ok (Some g) ->
  exp_make I impl rho (Some m) None p =
  (v <- call_code I f p0 (AMgga (spin_of rho) (grad_products 3 b rho) (laplacian 3 b rho)
     (if b then SPol (f_val rho [0%nat] * g) (f_val rho [1%nat] * g) else SUnpol (f_val rho [] * g)));;
   Ok (if Rlt_dec (total_density p0 rho) (dens_threshold (fp_scal p0)) then Some 0 else v)).
Proof. exact experimental_deorbitalize_tau. Qed.
Print Assumptions C12_experimental_deorbitalize.

(** ** C16: the arguments are rejected exactly when malformed. *)
Theorem C16_rejected_iff_malformed :
  forall p d rho mo deo, family (fp_type p) -> nspin_ok p ->
  (exists e, rho_to_arguments p d rho mo deo = Err e) <->
  ~ ((fp_nspin p = 1%nat -> f_shape rho = []) /\
     (fp_nspin p = 2%nat -> f_shape rho = [2%nat]) /\
     (fp_type p = "mgga"%b -> exists m, mo = Some m /\
        (fp_nspin p = 1%nat -> exists N, f_shape m = [N]) /\
        (fp_nspin p = 2%nat -> exists N, f_shape m = [2%nat; N]))).
Proof. exact rejection. Qed.
Print Assumptions C16_rejected_iff_malformed.
(** A meta-GGA in the polarized mode with orbitals of shape (1, 2) is rejected; with shape
    (2, 1) it is not. *)
Example C16_example :
  (exists e, rho_to_arguments (leaf "mgga" 2) 3 field_pol (Some (Field [1%nat; 2%nat] (fun _ => (0, 0)) (fun _ _ => (0, 0)) (fun _ _ _ => (0, 0)))) None = Err e) /\
  ~ (exists e, rho_to_arguments (leaf "mgga" 2) 3 field_pol (Some mo_pol) None = Err e).
Proof.
  split.
  - apply C16_rejected_iff_malformed; [right; right; reflexivity|right; reflexivity|].
    intros (_ & _ & H). destruct (H eq_refl) as (m & E & _ & H2). injection E as <-. destruct (H2 eq_refl) as [N EN]. discriminate.
  - intros H. apply C16_rejected_iff_malformed in H; [|right; right; reflexivity|right; reflexivity].
    apply H. split; [discriminate|]. split; [reflexivity|]. intros _. exists mo_pol. split; [reflexivity|]. split; [discriminate|]. exists 1%nat. reflexivity.
Qed.

(** ** C17: the gradient products handed to a formula. *)
Theorem C17_gradient_products_polarized :
  forall p d rho x F mo deo a s0 s1 s2, at_point d [2%nat] rho x F ->
  rho_to_arguments p d F mo deo = Ok a -> fa_grads a = Some (GPol s0 s1 s2) ->
  0 <= s0 /\ 0 <= s2 /\ s1 * s1 <= s0 * s2 /\
  (forall g, has_grad d (fun y => rho y [0%nat] + rho y [1%nat]) x g -> s0 + 2 * s1 + s2 = dot d g g) /\
  (forall g, has_grad d (fun y => rho y [0%nat]) x g -> s0 = dot d g g) /\
  (forall g, has_grad d (fun y => rho y [1%nat]) x g -> s2 = dot d g g).
Proof. exact gradient_products_pol. Qed.
Print Assumptions C17_gradient_products_polarized.
Theorem C17_gradient_product_unpolarized :
  forall p d rho x F mo deo a s, at_point d [] rho x F ->
  rho_to_arguments p d F mo deo = Ok a -> fa_grads a = Some (GUnpol s) ->
  forall g, has_grad d (fun y => rho y []) x g -> s = dot d g g.
Proof. exact gradient_products_unpol. Qed.
Print Assumptions C17_gradient_product_unpolarized.
(** Spin densities x0 + 3 and 2 x1 + 2: the products are 1, 0, 4. *)
Example C17_example : exists a s0 s1 s2,
  rho_to_arguments (leaf "gga" 2) 3 field_pol None None = Ok a /\ fa_grads a = Some (GPol s0 s1 s2) /\
  s0 + 2 * s1 + s2 = 5 /\ s1 * s1 <= s0 * s2.
Proof.
  eexists _, _, _, _. split; [reflexivity|]. split; [reflexivity|].
  edestruct (C17_gradient_products_polarized (leaf "gga" 2) 3 lin_pol origin field_pol None None) as (_ & _ & H & _); [exact field_pol_at|reflexivity|reflexivity|].
  split; [|exact H]. unfold dot. cbn. lra.
Qed.

(** ** C18: rotations, reflections and translations of the frame. *)
Theorem C18_rotational_invariance :
  forall I impl p d Q t x sh sh' rho mo F F' M M',
  isometry d Q ->
  at_point d sh rho (move d Q t x) F -> at_point d sh (fun y => rho (move d Q t y)) x F' ->
  at_point_c d sh' mo (move d Q t x) M -> at_point_c d sh' (fun y => mo (move d Q t y)) x M' ->
  all_nodes (fun q => family (fp_type q)) p ->
  epsilon_xc I impl p d F (Some M) = epsilon_xc I impl p d F' (Some M') /\
  epsilon_xc I impl p d F None = epsilon_xc I impl p d F' None.
Proof. exact rotation_invariant. Qed.
Print Assumptions C18_rotational_invariance.
(** The local ingredients themselves. *)
Theorem C18_local_ingredients :
  forall d Q t x sh sh' rho mo F F' M M', isometry d Q ->
  at_point d sh rho (move d Q t x) F -> at_point d sh (fun y => rho (move d Q t y)) x F' ->
  at_point_c d sh' mo (move d Q t x) M -> at_point_c d sh' (fun y => mo (move d Q t y)) x M' ->
  agree_mgga d F F' (Some M) (Some M').
Proof. exact rotated_agree. Qed.
Print Assumptions C18_local_ingredients.
(** Exchanging the first two coordinates is such a transformation (a reflection). *)
Definition swap01 : mat := fun i j =>
  match i, j with 0%nat, 1%nat | 1%nat, 0%nat => 1 | S (S _), _ => if Nat.eq_dec i j then 1 else 0 | _, _ => 0 end.
Example C18_example : isometry 3 swap01.
Proof.
  split; intros i j Hi Hj; destruct i as [|[|[|]]]; try lia; destruct j as [|[|[|]]]; try lia; cbn; lra.
Qed.

(** ** C19: the kinetic energy density. *)
Theorem C19_tau_nonnegative : forall d N g, 0 <= orbital_tau d N g.
Proof. exact tau_nonneg. Qed.
Print Assumptions C19_tau_nonnegative.
Theorem C19_tau_additive :
  forall d N M g, orbital_tau d (N + M) g = orbital_tau d N g + orbital_tau d M (fun n => g (N + n)%nat).
Proof. exact tau_additive. Qed.
Print Assumptions C19_tau_additive.
Theorem C19_tau_unitary :
  forall d N U sh (ix : nat -> list nat) mo mo' x M M', unitary N U ->
  at_point_c d sh mo x M -> at_point_c d sh mo' x M' ->
  (forall y m, (m < N)%nat -> mo' y (ix m) = csum N (fun n => cmul (U m n) (mo y (ix n)))) ->
  orbital_tau d N (fun n => f_jac M (ix n)) = orbital_tau d N (fun n => f_jac M' (ix n)).
Proof. exact tau_unitary. Qed.
Print Assumptions C19_tau_unitary.
Theorem C19_tau_phase :
  forall d N theta sh (ix : nat -> list nat) mo mo' x M M',
  at_point_c d sh mo x M -> at_point_c d sh mo' x M' ->
  (forall y m, (m < N)%nat -> mo' y (ix m) = cmul (cos (theta m), sin (theta m)) (mo y (ix m))) ->
  orbital_tau d N (fun n => f_jac M (ix n)) = orbital_tau d N (fun n => f_jac M' (ix n)).
Proof. exact tau_phase. Qed.
Print Assumptions C19_tau_phase.
(** tau >= |grad n|^2 / (8 n), in the form without a division. *)
Theorem C19_von_weizsaecker_bound :
  forall d N sh sh' (ix : nat -> list nat) s rho mo x F M,
  at_point d sh rho x F -> at_point_c d sh' mo x M ->
  (forall y, rho y s = rsum N (fun n => modsq (mo y (ix n)))) ->
  dot d (f_jac F s) (f_jac F s) <= 8 * f_val F s * orbital_tau d N (fun n => f_jac M (ix n)).
Proof. exact von_weizsaecker. Qed.
Print Assumptions C19_von_weizsaecker_bound.
(** What the code hands to a formula is this [orbital_tau]. *)
Theorem C19_tau_is_orbital_tau :
  forall d m N, (f_shape m = [N] -> kinetic d false m = SUnpol (orbital_tau d N (fun n => f_jac m [n]))) /\
  (f_shape m = [2%nat; N] -> kinetic d true m =
     SPol (orbital_tau d N (fun n => f_jac m [0%nat; n])) (orbital_tau d N (fun n => f_jac m [1%nat; n]))).
Proof. intros d m N. unfold kinetic. split; intros ->; reflexivity. Qed.
Print Assumptions C19_tau_is_orbital_tau.
Example C19_example : at_point_c 3 [1%nat] lin_mo origin mo_unpol /\ kinetic 3 false mo_unpol = SUnpol (/ 2).
Proof. split; [exact (mo_at [1%nat])|]. cbn. f_equal. unfold orbital_tau, conj_re. cbn. lra. Qed.

(** ** C20: the experimental interface gives the same results. *)
Theorem C20_experimental_agrees :
  forall I impl (get_p : bool -> func_p) rho mo (b : bool) v,
  f_shape rho = (if b then [2%nat] else []) ->
  all_nodes (regular (if b then 2%nat else 1%nat)) (get_p b) -> tree_ok (get_p b) ->
  (fp_type (get_p b) = "mgga"%b -> exists m, mo = Some m /\ orbitals_fit m (if b then 2%nat else 1%nat)) ->
  (exp_epsilon_xc I impl get_p rho mo = Ok v <-> epsilon_xc I impl (get_p b) 3 rho mo = Ok v).
Proof. exact experimental_agrees. Qed.
Print Assumptions C20_experimental_agrees.
Theorem C20_experimental_accepts_only :
  forall I impl (get_p : bool -> func_p) rho mo v, exp_epsilon_xc I impl get_p rho mo = Ok v ->
  exists b : bool, f_shape rho = (if b then [2%nat] else []) /\
    (fp_type (get_p b) = "mgga"%b -> exists m, mo = Some m /\ orbitals_fit m (if b then 2%nat else 1%nat)).
Proof. exact experimental_rejects. Qed.
Print Assumptions C20_experimental_accepts_only.
Example C20_example :
  let get_p (b : bool) := sample "mgga" (if b then 2 else 1) ""
    (Some [leaf "mgga" (if b then 2 else 1); leaf "gga" (if b then 2 else 1)]) (Some [/ 4; 3]) in
  forall v, exp_epsilon_xc no_ops toy_impl get_p field_pol (Some mo_pol) = Ok v <-> epsilon_xc no_ops toy_impl (get_p true) 3 field_pol (Some mo_pol) = Ok v.
Proof.
  intros get_p v. apply (C20_experimental_agrees no_ops toy_impl get_p field_pol (Some mo_pol) true v); [reflexivity| |cbn; auto|].
  - cbn. unfold regular, family. cbn. intuition.
  - intros _. exists mo_pol. split; [reflexivity|]. right. split; [reflexivity|]. exists 1%nat. reflexivity.
Qed.

(** ** C30 is false: a functional that is not itself a meta-GGA does not pass the orbitals on, so
    one with a meta-GGA among its components always fails, whatever is supplied. *)
Theorem C30_mixture_with_mgga_component_refuted :
  ~ (forall I impl p d rho mo w q, In (w, q) (leaves 1 p) -> fp_type q = "mgga"%b -> tree_ok p ->
       all_nodes (fun q => well_formed q rho mo /\ family (fp_type q) /\ nspin_ok q) p ->
       exists v, epsilon_xc I impl p d rho mo = Ok v).
Proof.
  intros H.
  set (p := sample "gga" 1 "" (Some [leaf "mgga" 1]) (Some [1])).
  assert (Hin : In (1 * 1, leaf "mgga" 1) (leaves 1 p)) by (left; reflexivity).
  destruct (H no_ops toy_impl p 3%nat field_unpol (Some mo_unpol) _ _ Hin eq_refl) as [v Hv].
  - cbn. auto.
  - cbn. unfold well_formed, family, nspin_ok. cbn.
    assert (X : exists m, Some mo_unpol = Some m /\ (1%nat = 1%nat -> exists N, f_shape m = [N]) /\ (1%nat = 2%nat -> exists N, f_shape m = [2%nat; N]))
      by (exists mo_unpol; split; [reflexivity|]; split; [exists 1%nat; reflexivity|discriminate]).
    intuition; discriminate.
  - revert Hv. apply (mixture_never_gets_orbitals no_ops toy_impl p 3 field_unpol (Some mo_unpol) (1 * 1) (leaf "mgga" 1)); [discriminate|exact Hin|reflexivity].
Qed.
Print Assumptions C30_mixture_with_mgga_component_refuted.
Theorem C30_mixture_never_gets_orbitals :
  forall I impl p d rho mo w q, fp_type p <> "mgga"%b ->
  In (w, q) (leaves 1 p) -> fp_type q = "mgga"%b -> forall v, epsilon_xc I impl p d rho mo <> Ok v.
Proof. exact mixture_never_gets_orbitals. Qed.
Print Assumptions C30_mixture_never_gets_orbitals.

(** ** C31: the value depends on the density and the orbitals through the listed local
    quantities only. *)
Theorem C31_semilocality :
  forall I impl d rho rho' mo mo' p,
  all_nodes (fun q => agree_for (fp_type q) d rho rho' mo mo') p ->
  (fp_type p <> "mgga"%b -> all_nodes (fun q => agree_for (fp_type q) d rho rho' None None) p) ->
  epsilon_xc I impl p d rho mo = epsilon_xc I impl p d rho' mo'.
Proof. exact semilocal_top. Qed.
Print Assumptions C31_semilocality.
(** Two densities with the same value and the same length of the gradient, of different
    directions, and different second derivatives. *)
Example C31_example :
  let rho' := Field [] (lin_unpol origin) (fun _ i => match i with 0%nat => 2 | 2%nat => 1 | _ => 0 end) (fun _ i j => INR (i + j)) in
  epsilon_xc no_ops toy_impl (leaf "gga" 1) 3 field_unpol None = epsilon_xc no_ops toy_impl (leaf "gga" 1) 3 rho' None.
Proof.
  intros rho'.
  assert (A : agree_for "gga" 3 field_unpol rho' None None).
  { right. left. split; [reflexivity|]. split; [split; [reflexivity|reflexivity]|]. intros i j. unfold dot. cbn. lra. }
  apply C31_semilocality; [|intros _]; cbn; split; auto.
Qed.
