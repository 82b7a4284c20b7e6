(** Deorbitalized functionals (C12): the branch for them is never reached with components, and
    a concrete structure on which the value is wrong. *)
From Coq Require Import Reals List Bool QArith Qreals Arith Lra Lia.
From Verif Require Import Bytes Syntax Parser PostProcess Src Semantics Free Vec Impl ImplThm Records RecordsThm RecordsThm2 RecordsThm3 Samples.
Import ListNotations.
Open Scope R_scope.

Theorem deorbitalize_unreachable rg heap f p : func_of rg heap f = Ok p -> fp_maple p = DEORBITALIZE -> fp_aux p = None.
Proof.
  rewrite func_of_unfold. destruct (get_maple_name rg f) as [m|] eqn:Em; cbn [rbind]; [|discriminate].
  destruct (name_to_type (x_name f)); cbn [rbind]; [|discriminate].
  assert (K : m = DEORBITALIZE -> x_aux f = None).
  { intros ->. revert Em. unfold get_maple_name. destruct (beqb _ _); [discriminate|]. destruct (beqb _ _); [discriminate|].
    destruct (x_aux f); [discriminate|reflexivity]. }
  destruct (x_aux f) as [[|g l]|]; intros H.
  - injection H as <-. reflexivity.
  - destruct (rmap (func_of rg heap) (g :: l)); cbn [rbind] in H; [|discriminate]. injection H as <-. cbn [fp_maple fp_aux].
    intros E. specialize (K E). discriminate.
  - injection H as <-. reflexivity.
Qed.
Theorem deorbitalize_attribute_error I impl d rho mo rg heap f p : func_of rg heap f = Ok p -> fp_maple p = DEORBITALIZE ->
  invoke I impl d rho mo p = Err AttributeError.
Proof.
  intros H E. pose proof (deorbitalize_unreachable rg heap f p H E) as Ha. destruct p as [name ty ns mp sc pa aux mix].
  cbn [fp_maple fp_aux] in *. subst mp aux. reflexivity.
Qed.

(** Two meta-GGAs: the value of the first is tau, that of the second twice the density. *)
Definition tau_formula : source := Source "mgga_tau" ["res = tau0 + tau1"]%b ["res = tau0"]%b.
Definition ked_formula : source := Source "mgga_ked" ["res = r0 + r1"]%b ["res = 0.2e1 * r0"]%b.
Definition deo_impl : modules := fun n =>
  if beqb n "mgga_tau" then Some tau_formula else if beqb n "mgga_ked" then Some ked_formula else None.
Definition deo_rg : registries := {| registry := []; work_to_maple_name := [(1%nat, "mgga_tau"%b); (2%nat, "mgga_ked"%b)] |}.
Definition xc_leaf (name : bstr) (work : nat) : xc_func :=
  XC name None None (Some work) 0%nat sample_scalars 1%nat [] None None.
Definition xc_deorbitalized : xc_func :=
  XC "mgga_x_taul" None None None 0%nat sample_scalars 1%nat [] (Some [xc_leaf "mgga_x_tau" 1; xc_leaf "mgga_k_ked" 2]) None.
Definition zeros (n : nat) : list R := repeat 0 n.

Lemma tau_generated : generated (src_unpol tau_formula) = Some [("res"%b, EVar "tau0")] /\
  generated (src_unpol ked_formula) = Some [("res"%b, EMul (ENum (2 # 1)) (EVar "r0"))].
Proof. split; vm_compute; reflexivity. Qed.

Definition p_tau : func_p := FuncP "mgga_x_tau" "mgga" 1 "mgga_tau" sample_scalars (param_of []) None None.
Definition p_ked : func_p := FuncP "mgga_k_ked" "mgga" 1 "mgga_ked" sample_scalars (param_of []) None None.
Lemma deo_components : func_of deo_rg zeros (xc_leaf "mgga_x_tau" 1) = Ok p_tau /\ func_of deo_rg zeros (xc_leaf "mgga_k_ked" 2) = Ok p_ked.
Proof. split; reflexivity. Qed.

Lemma tau_value deo : impl_invoke no_ops tau_formula p_tau 3 field_unpol (Some mo_unpol) deo =
  Ok (Some match deo with Some g => 5 * g | None => / 2 end).
Proof.
  rewrite impl_invoke_eq.
  - unfold call_code. cbn [fp_nspin p_tau Nat.eqb]. unfold expected_args. cbn [is_type fp_type p_tau beqb].
    unfold is_type, p_tau. cbn [fp_type]. change (beqb "mgga" "lda") with false. change (beqb "mgga" "gga") with false. cbv iota.
    cbn [fa_dens spin_of f_shape field_unpol]. unfold run_code. rewrite (proj1 tau_generated).
    cbn [existsb prog_ops flat_map snd ops app]. cbn [free free_from vars filter mem existsb negb app].
    assert (T : total_density p_tau field_unpol = 5) by (unfold total_density, lin_unpol, origin; cbn; unfold lin_unpol, origin; lra).
    unfold p_tau in T. rewrite T. cbn [fp_scal dens_threshold sample_scalars].
    destruct deo as [g|]; cbn; unfold to_unpol; cbn; (destruct (Rlt_dec 5 (/ 100)); [lra|]); do 2 f_equal.
    + unfold lin_unpol, origin. lra.
    + unfold orbital_tau, conj_re. cbn. lra.
  - right. right. reflexivity.
  - left. reflexivity.
  - split; [reflexivity|]. split; [discriminate|]. intros _. exists mo_unpol. split; [reflexivity|].
    split; [exists 1%nat; reflexivity|discriminate].
Qed.
Lemma ked_value : impl_invoke no_ops ked_formula p_ked 3 field_unpol (Some mo_unpol) None = Ok (Some 10).
Proof.
  rewrite impl_invoke_eq.
  - unfold call_code. cbn [fp_nspin p_ked Nat.eqb]. unfold expected_args.
    unfold is_type, p_ked. cbn [fp_type]. change (beqb "mgga" "lda") with false. change (beqb "mgga" "gga") with false. cbv iota.
    cbn [fa_dens spin_of f_shape field_unpol]. unfold run_code. rewrite (proj2 tau_generated).
    assert (T : total_density p_ked field_unpol = 5) by (unfold total_density, lin_unpol, origin; cbn; unfold lin_unpol, origin; lra).
    unfold p_ked in T. rewrite T. cbn [fp_scal dens_threshold sample_scalars].
    cbn. (destruct (Rlt_dec 5 (/ 100)); [lra|]). do 2 f_equal. unfold lin_unpol, origin, Q2R. simpl. lra.
  - right. right. reflexivity.
  - left. reflexivity.
  - split; [reflexivity|]. split; [discriminate|]. intros _. exists mo_unpol. split; [reflexivity|].
    split; [exists 1%nat; reflexivity|discriminate].
Qed.

(** The deorbitalized value would be 50; with zeroed memory the library returns 0. *)
Theorem deorbitalized_wrong : exists p,
  func_of deo_rg zeros xc_deorbitalized = Ok p /\
  (* the second component's value is 10 *)
  invoke no_ops deo_impl 3 field_unpol (Some mo_unpol) p_ked = Ok (Some 10) /\
  (* so the first, with tau replaced by density times 10, gives 50 *)
  impl_invoke no_ops tau_formula p_tau 3 field_unpol (Some mo_unpol) (Some 10) = Ok (Some 50) /\
  epsilon_xc no_ops deo_impl p 3 field_unpol (Some mo_unpol) = Ok (Some 0).
Proof.
  assert (V1 : invoke no_ops deo_impl 3 field_unpol (Some mo_unpol) p_ked = Ok (Some 10)) by exact ked_value.
  assert (V0 : invoke no_ops deo_impl 3 field_unpol (Some mo_unpol) p_tau = Ok (Some (/ 2))) by exact (tau_value None).
  destruct (deorbitalized_value deo_rg zeros no_ops deo_impl 3 field_unpol (Some mo_unpol) xc_deorbitalized
    (xc_leaf "mgga_x_tau" 1) (xc_leaf "mgga_k_ked" 2) "mgga" p_tau p_ked 0 0 (/ 2) 10) as (p & Ep & Ev); try reflexivity; try assumption.
  { intros [H|H]; discriminate H. }
  exists p. split; [exact Ep|]. split; [exact V1|]. split; [rewrite tau_value; do 2 f_equal; lra|].
  cbn in Ep. injection Ep as <-. unfold epsilon_xc. change (is_type _ "mgga") with true. cbv iota. rewrite Ev. do 2 f_equal. lra.
Qed.
