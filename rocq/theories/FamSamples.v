(** Concrete records and points for the examples of PropFamilies.v: the functional gga_x_pbe with
    kappa = 4/5 and mu = 1/5 at a density with a gradient. *)
From Coq Require Import Reals List Bool QArith Arith Lra Lia.
From Verif Require Import Bytes Syntax Parser PostProcess Src Semantics Free Vec Deriv Impl ImplThm ImplThm2 ImplThm4 Records
  Samples Families Interval Absint AbsintThm Defined Domains Exact Inputs Library FamInputs Ast.
Import ListNotations.
Open Scope R_scope.

Definition lib_impl (f : source) : modules := fun n => if beqb n (src_name f) then Some f else None.
Definition lib_record (f : source) (ty : bstr) (ns : nat) (params : list (bstr * R)) : func_p :=
  FuncP (src_name f) ty ns (src_name f) sample_scalars (fun x => assoc x params) None None.
Definition pbe_params : list (bstr * R) := [("kappa"%b, 4 / 5); ("mu"%b, / 5)].
Definition pbe (ns : nat) : func_p := lib_record f_gga_x_pbe "gga" ns pbe_params.
Definition kapbe (ns : nat) : func_p := lib_record f_gga_k_apbe "gga" ns pbe_params.

Lemma pbe_single ns : single (lib_impl f_gga_x_pbe) (pbe ns) f_gga_x_pbe.
Proof. split; [discriminate|]. split; [discriminate|]. reflexivity. Qed.
Lemma kapbe_single ns : single (lib_impl f_gga_k_apbe) (kapbe ns) f_gga_k_apbe.
Proof. split; [discriminate|]. split; [discriminate|]. reflexivity. Qed.
Lemma pbe_attrs ns : params_ok (attrs_of (pbe ns)) [("params.kappa"%b, SPos); ("params.mu"%b, SNonneg)].
Proof.
  split; [exists (/ 1000); split; [reflexivity|lra]|]. split; [exists (/ 100); reflexivity|].
  intros x s [E|[E|[]]]; injection E as <- <-; (eexists; split; [reflexivity|]); cbn [sat_sort]; lra.
Qed.
Lemma pbe_record ns : record_for (lib_impl f_gga_x_pbe) f_gga_x_pbe d_gga_x_pbe ns (pbe ns).
Proof. split; [apply pbe_single|]. split; [reflexivity|]. split; [reflexivity|apply pbe_attrs]. Qed.
Lemma pbe_nrecord ns : record_for (lib_impl f_gga_x_pbe) f_gga_x_pbe n_gga_x_pbe ns (pbe ns).
Proof. exact (pbe_record ns). Qed.
Lemma kapbe_record ns : record_for (lib_impl f_gga_k_apbe) f_gga_k_apbe d_gga_k_apbe ns (kapbe ns).
Proof. split; [apply kapbe_single|]. split; [reflexivity|]. split; [reflexivity|exact (pbe_attrs ns)]. Qed.
Lemma pbe_same m n : same_functional (pbe m) (pbe n). Proof. repeat split. Qed.

(** The density 5 with gradient (1, 2, 0); its two halves; the channels (3, 2) exchanged; scaled
    by 2; doubled; a uniform density. *)
Definition half_pol : field R := Field [2%nat] (fun _ => 5 / 2) (fun _ i => grad_unpol [] i / 2) (fun _ _ _ => 0).
Definition flip (ix : list nat) : list nat := match ix with [0%nat] => [1%nat] | _ => [0%nat] end.
Definition swapped_pol : field R := Field [2%nat] (fun ix => lin_pol origin (flip ix)) (fun ix => grad_pol (flip ix)) (fun _ _ _ => 0).
Definition scaled_pol : field R :=
  Field [2%nat] (fun ix => 2 ^ 3 * lin_pol origin ix) (fun ix i => 2 ^ 4 * grad_pol ix i) (fun _ _ _ => 0).
Definition doubled_unpol (s : nat) : field R :=
  Field [] (fun _ => 2 * lin_pol origin [s]) (fun _ i => 2 * grad_pol [s] i) (fun _ _ _ => 0).
Definition uniform_pol : field R := Field [2%nat] (lin_pol origin) (fun _ _ => 0) (fun _ _ _ => 0).

Lemma wf_unpol ns p rho : fp_type p = "gga"%b -> fp_nspin p = ns -> f_shape rho = (if (ns =? 2)%nat then [2%nat] else []) -> ns = 1%nat \/ ns = 2%nat ->
  well_formed p rho None.
Proof.
  intros T N S H. split; [|split].
  - intros E. rewrite N in E. rewrite E in S. exact S.
  - intros E. rewrite N in E. rewrite E in S. exact S.
  - rewrite T. discriminate.
Qed.
Lemma lin_unpol_pos : 0 < f_val field_unpol []. Proof. cbn. unfold lin_unpol, origin. lra. Qed.
Lemma lin_pol0 : lin_pol origin [0%nat] = 3. Proof. unfold lin_pol, origin. lra. Qed.
Lemma lin_pol1 : lin_pol origin [1%nat] = 2. Proof. unfold lin_pol, origin. lra. Qed.
Lemma gga_point_unpol d p : is_pos (d_level d) = false -> fp_type p = "gga"%b -> fp_nspin p = 1%nat -> point_unpol d p 3 field_unpol None.
Proof.
  intros L T N. split; [apply (wf_unpol 1); auto|]. split; [apply lin_unpol_pos|]. split; [rewrite L; discriminate|rewrite T; discriminate].
Qed.
Lemma gga_point_pol d p rho : is_pos (d_level d) = false -> fp_type p = "gga"%b -> fp_nspin p = 2%nat ->
  f_shape rho = [2%nat] -> 0 < f_val rho [0%nat] -> 0 < f_val rho [1%nat] -> point_pol d p 3 rho None.
Proof.
  intros L T N S P0 P1. split; [apply (wf_unpol 2); auto|]. split; [exact P0|]. split; [exact P1|]. split; [rewrite L; discriminate|rewrite T; discriminate].
Qed.
Lemma sample_unscreened p : fp_scal p = sample_scalars -> unscreened p field_pol.
Proof. intros E. unfold unscreened. rewrite E. cbn [f_val field_pol]. rewrite lin_pol0, lin_pol1. cbn. lra. Qed.
Lemma sample_unclipped p rho : fp_scal p = sample_scalars -> f_val rho [0%nat] = 3 -> f_val rho [1%nat] = 2 -> unclipped p rho.
Proof. intros E E0 E1. unfold unclipped. rewrite E, E0, E1. cbn. lra. Qed.

(** Membership in a long list of constants. *)
Lemma in_here {A} (x : A) l : In x (x :: l). Proof. left. reflexivity. Qed.
Lemma in_next {A} (x y : A) l : In x l -> In x (y :: l). Proof. intros H. right. exact H. Qed.
Ltac in_list := match goal with
  | |- In ?x (?x :: _) => exact (in_here x _)
  | |- In _ (_ :: _) => simple apply in_next; in_list
  | |- In _ ?l => unfold l; in_list
  end.

(** A record of mgga_x_br89 whose parameters are all zero, and its formula evaluated with orbitals:
    the undefined function br89_x makes every call fail. *)
Definition br89 : func_p := FuncP "mgga_x_br89" "mgga" 1 "mgga_x_br89" sample_scalars (fun _ => Some 0) None None.
Lemma br89_attrs : has_attrs (attrs_of br89) (formula_text br89 f_mgga_x_br89).
Proof.
  intros prog x G Hx Ha. change (generated (src_unpol (c_src a_mgga_x_br89)) = Some prog) in G. rewrite (c_unpol_ok a_mgga_x_br89) in G.
  assert (F : forallb (fun x => negb (attr_name x) || bprefix "params." x || mem x ["p.dens_threshold"; "p.zeta_threshold"])%b
    (free (c_unpol a_mgga_x_br89)) = true) by (vm_cast_no_check (eq_refl true)).
  assert (E : prog = c_unpol a_mgga_x_br89) by congruence. subst prog. rewrite forallb_forall in F. specialize (F x Hx). rewrite Ha in F.
  cbn [negb orb] in F. unfold attrs_of. unfold bprefix in F. destruct (bstrip "params." x); [discriminate|]. cbn [orb] in F.
  apply mem_In in F. destruct F as [<-|[<-|[]]]; discriminate.
Qed.
Lemma callable_refuted : ~ Forall raises_nothing all_sources.
Proof.
  intros H. assert (M : In f_mgga_x_br89 all_sources) by in_list.
  pose proof (proj1 (Forall_forall _ _) H _ M) as R. pose proof (proj1 (Forall_forall _ _) exceptions_holds _ M) as E.
  assert (D : mem (src_name f_mgga_x_br89) name_error_names = true) by reflexivity.
  unfold no_exception in E. rewrite D in E.
  assert (S : single (lib_impl f_mgga_x_br89) br89 f_mgga_x_br89) by (split; [discriminate|split; [discriminate|reflexivity]]).
  assert (W : well_formed br89 field_unpol (Some mo_unpol)).
  { split; [reflexivity|]. split; [discriminate|]. intros _. exists mo_unpol. split; [reflexivity|]. split; [eexists; reflexivity|discriminate]. }
  destruct (R sample_ops _ br89 3%nat field_unpol (Some mo_unpol) S eq_refl (or_introl eq_refl) br89_attrs W) as (v & Hv).
  rewrite (E sample_ops _ br89 3%nat field_unpol (Some mo_unpol) S (or_intror (or_intror eq_refl)) (or_introl eq_refl) W) in Hv. discriminate.
Qed.
