(** The functionals to which the statements of Callable.v apply, and PBE correlation as a sample. *)
From Coq Require Import Reals List Bool QArith Qreals Arith Lra Lia.
From Verif Require Import Bytes Syntax Parser PostProcess Src Ast Semantics Free Vec Impl ImplThm ImplThm2 ImplThm4 Records
  Samples Families Interval IntervalThm IntervalThm2 Absint AbsintThm AbsintThm2 AbsintThm3 Defined Refute Inputs Library FamInputs Callable Fam FamUnifX FamUnifK FamSamples.
Import ListNotations.
Open Scope R_scope.

Lemma closed_callables : Forall closed_shell_callable closed_shell_functionals.
Proof. exact (Forall_impl _ closed_callable closed_shell_holds). Qed.
Lemma swap_callables : Forall spin_symmetric_callable swap_functionals.
Proof. exact (Forall_impl _ swap_callable swap_holds). Qed.
Lemma scale1_callables : Forall (scales_callable 1) scale1_functionals.
Proof. exact (Forall_impl _ (fun f => scale_callable f 1) scale1_holds). Qed.
Lemma scale2_callables : Forall (scales_callable 2) scale2_functionals.
Proof. exact (Forall_impl _ (fun f => scale_callable f 2) scale2_holds). Qed.
Lemma spin_callables : Forall spin_scales_callable spin_functionals.
Proof. exact (Forall_impl _ spin_callable spin_holds). Qed.
Lemma uniform_inputs : forallb inputs_ok (uniform_x_list1 ++ uniform_k_list1) = true.
Proof. vm_cast_no_check (eq_refl true). Qed.
Lemma uniform_callables e l : incl l (uniform_x_list1 ++ uniform_k_list1) ->
  Forall (uniform_limit e []) (map c_src l) -> Forall (uniform_callable e []) (map c_src l).
Proof.
  intros L H. apply Forall_forall. intros f Hf. pose proof (proj1 (Forall_forall _ _) H f Hf) as U.
  apply in_map_iff in Hf. destruct Hf as (c & <- & Hc). refine (unif_callable _ e [] _ U). apply reads_family_sound.
  exact (proj1 (forallb_forall _ _) uniform_inputs c (L c Hc)).
Qed.
Lemma uniform_x_callables : Forall (uniform_callable slater_energy []) uniform_x_functionals.
Proof. apply (uniform_callables slater_energy uniform_x_list1); [apply incl_appl, incl_refl|exact uniform_x_holds]. Qed.
Lemma uniform_k_callables : Forall (uniform_callable tf_energy []) uniform_k_functionals.
Proof. apply (uniform_callables tf_energy uniform_k_list1); [apply incl_appr, incl_refl|exact uniform_k_holds]. Qed.

(** ** PBE correlation: a record, and its values at the two forms of a closed-shell density *)
Definition pbec_params : list (bstr * R) := [("beta"%b, / 15); ("gamma"%b, 3 / 100); ("BB"%b, 1)].
Definition pbec (ns : nat) : func_p := lib_record f_gga_c_pbe "gga" ns pbec_params.
Lemma pbec_record ns : any_record (lib_impl f_gga_c_pbe) f_gga_c_pbe ns (pbec ns).
Proof.
  split; [split; [discriminate|split; [discriminate|reflexivity]]|]. split; [reflexivity|]. split; [reflexivity|]. cbn. lra.
Qed.
Lemma pbec_same : same_functional (pbec 1) (pbec 2). Proof. repeat split. Qed.
Definition pbec_attrs : qlist := [("p.dens_threshold"%b, 1 # 100); ("p.zeta_threshold"%b, 1 # 1000);
  ("params.beta"%b, 1 # 15); ("params.gamma"%b, 3 # 100); ("params.BB"%b, 1)]%Q.
Definition unpol_point : qlist := [("r0"%b, 5); ("s0"%b, 5)]%Q.
Definition half_point : qlist := [("r0"%b, 5 # 2); ("r1"%b, 5 # 2); ("s0"%b, 5 # 4); ("s1"%b, 5 # 4); ("s2"%b, 5 # 4)]%Q.
Definition lin_point : qlist := [("r0"%b, 3); ("r1"%b, 2); ("s0"%b, 1); ("s1"%b, 0); ("s2"%b, 4)]%Q.
Definition flipped_point : qlist := [("r0"%b, 2); ("r1"%b, 3); ("s0"%b, 4); ("s1"%b, 0); ("s2"%b, 1)]%Q.
Definition some_itv (o : option itv) : bool := match o with Some _ => true | None => false end.
Lemma pbec_at_unpol : some_itv (at_unpol pbec_attrs unpol_point a_gga_c_pbe) = true. Proof. vm_compute. reflexivity. Qed.
Lemma pbec_at_half : some_itv (at_pol pbec_attrs half_point a_gga_c_pbe) = true. Proof. vm_compute. reflexivity. Qed.
Lemma pbec_at_lin : some_itv (at_pol pbec_attrs lin_point a_gga_c_pbe) = true. Proof. vm_compute. reflexivity. Qed.
Lemma pbec_at_flipped : some_itv (at_pol pbec_attrs flipped_point a_gga_c_pbe) = true. Proof. vm_compute. reflexivity. Qed.
Lemma value_at_pol ps xs c I A a : some_itv (at_pol ps xs c) = true -> ops_ok I ->
  (forall x q, qlook (ps ++ xs) x = Some q -> pol_env A a x = Some (VR (Q2R q))) -> exists v, pol (c_src c) I A a = Some v.
Proof.
  intros S HI E. unfold at_pol in S. destruct (_ && _ && _) eqn:B in S; [|discriminate]. destruct (shown _ _ _) as [i|] eqn:H in S; [|discriminate].
  apply andb_prop in B. rewrite result_pol.
  destruct (shown_ok I HI [1] headed1 [SPos] sorts1 _ _ _ _ (point_env_ok _ _ _ E) (proj2 B) H) as (v & Hv & _). exists v. exact Hv.
Qed.
Lemma value_at_unpol ps xs c I A a : some_itv (at_unpol ps xs c) = true -> ops_ok I ->
  (forall x q, qlook (ps ++ xs) x = Some q -> unpol_env A a x = Some (VR (Q2R q))) -> exists v, unpol (c_src c) I A a = Some v.
Proof.
  intros S HI E. unfold at_unpol in S. destruct (_ && _ && _) eqn:B in S; [|discriminate]. destruct (shown _ _ _) as [i|] eqn:H in S; [|discriminate].
  apply andb_prop in B. rewrite result_unpol.
  destruct (shown_ok I HI [1] headed1 [SPos] sorts1 _ _ _ _ (point_env_ok _ _ _ E) (proj2 B) H) as (v & Hv & _). exists v. exact Hv.
Qed.
Ltac env_at := intros x q; cbn [app qlook pbec_attrs unpol_point half_point lin_point flipped_point];
  repeat (match goal with |- context [if beqb x ?y then _ else _] => destruct (beqb x y) eqn:?X; [apply beqb_eq in X; subst x; intros E; injection E as <-|clear X] end);
  [..|discriminate].
Lemma pbec_half I : ops_ok I -> exists v, pol f_gga_c_pbe I (attrs_of (pbec 2)) (pol_at "gga" 3 half_pol None) = Some v.
Proof.
  intros HI. apply (value_at_pol pbec_attrs half_point a_gga_c_pbe _ _ _ pbec_at_half HI).
  env_at; cbn; unfold lin_pol, lin_unpol, origin; do 2 f_equal; unfold Q2R; cbn; lra.
Qed.
Lemma pbec_unpol I : ops_ok I -> exists v, unpol f_gga_c_pbe I (attrs_of (pbec 1)) (unpol_at "gga" 3 field_unpol None) = Some v.
Proof.
  intros HI. apply (value_at_unpol pbec_attrs unpol_point a_gga_c_pbe _ _ _ pbec_at_unpol HI).
  env_at; cbn; unfold lin_pol, lin_unpol, origin; do 2 f_equal; unfold Q2R; cbn; lra.
Qed.
Lemma pbec_lin I : ops_ok I -> exists v, pol f_gga_c_pbe I (attrs_of (pbec 2)) (pol_at "gga" 3 field_pol None) = Some v.
Proof.
  intros HI. apply (value_at_pol pbec_attrs lin_point a_gga_c_pbe _ _ _ pbec_at_lin HI).
  env_at; cbn; unfold lin_pol, lin_unpol, origin; do 2 f_equal; unfold Q2R; cbn; lra.
Qed.
Lemma pbec_flipped I : ops_ok I -> exists v, pol f_gga_c_pbe I (attrs_of (pbec 2)) (pol_at "gga" 3 swapped_pol None) = Some v.
Proof.
  intros HI. apply (value_at_pol pbec_attrs flipped_point a_gga_c_pbe _ _ _ pbec_at_flipped HI).
  env_at; cbn; unfold lin_pol, lin_unpol, origin; do 2 f_equal; unfold Q2R; cbn; lra.
Qed.
Definition pbec_names : list bstr := ["p.dens_threshold"; "p.zeta_threshold"; "params.beta"; "params.gamma"; "params.BB"]%b.
Lemma pbec_reads : forallb (fun x => negb (attr_name x) || mem x pbec_names) (free (c_pol a_gga_c_pbe) ++ free (c_unpol a_gga_c_pbe)) = true.
Proof. vm_cast_no_check (eq_refl true). Qed.
Lemma pbec_has ns : ns = 1%nat \/ ns = 2%nat -> has_attrs (attrs_of (pbec ns)) (formula_text (pbec ns) f_gga_c_pbe).
Proof.
  intros Hn prog x G Hx Ha. pose proof (proj1 (forallb_forall _ _) pbec_reads) as F.
  assert (E : prog = c_pol a_gga_c_pbe \/ prog = c_unpol a_gga_c_pbe).
  { destruct Hn as [->| ->].
    - right. change (generated (src_unpol (c_src a_gga_c_pbe)) = Some prog) in G. rewrite (c_unpol_ok a_gga_c_pbe) in G. congruence.
    - left. change (generated (src_pol (c_src a_gga_c_pbe)) = Some prog) in G. rewrite (c_pol_ok a_gga_c_pbe) in G. congruence. }
  assert (M : mem x pbec_names = true).
  { specialize (F x). cbn beta in F. rewrite Ha in F. cbn [negb orb] in F. apply F. apply in_or_app. destruct E as [<-|<-]; [left|right]; exact Hx. }
  apply mem_In in M. destruct M as [<-|[<-|[<-|[<-|[<-|[]]]]]]; discriminate.
Qed.
Lemma pbec_returns I ns rho : ns = 1%nat \/ ns = 2%nat -> well_formed (pbec ns) rho None ->
  exists v, epsilon_xc I (lib_impl f_gga_c_pbe) (pbec ns) 3 rho None = Ok v.
Proof.
  intros Hn W. assert (M : In f_gga_c_pbe all_sources) by in_list. pose proof (proj1 (Forall_forall _ _) exceptions_holds _ M) as E.
  assert (D : mem (src_name f_gga_c_pbe) name_error_names = false) by reflexivity. unfold no_exception in E. rewrite D in E.
  apply E; [split; [discriminate|split; [discriminate|reflexivity]]|reflexivity|exact Hn|exact (pbec_has ns Hn)|exact W].
Qed.
Lemma pbec_pol I rho : ops_ok I -> f_shape rho = [2%nat] -> unscreened (pbec 2) rho -> positive_pol rho ->
  (exists v, pol f_gga_c_pbe I (attrs_of (pbec 2)) (pol_at "gga" 3 rho None) = Some v) ->
  exists v, epsilon_xc I (lib_impl f_gga_c_pbe) (pbec 2) 3 rho None = Ok (Some v).
Proof.
  intros HI S N [Q0 Q1] (v & Hv). assert (W : well_formed (pbec 2) rho None) by (apply (wf_unpol 2); auto).
  destruct (pbec_returns I 2 rho (or_intror eq_refl) W) as (o & E).
  pose proof (value_pol I _ f_gga_c_pbe (pbec 2) 3 rho None o W E (pbec_record 2)) as V.
  destruct (Rlt_dec _ _) as [B|_] in V; [destruct (unscreened_total _ rho Q0 Q1 N B)|].
  exists v. rewrite E, V. f_equal. exact Hv.
Qed.
Lemma pbec_returns_unpol I : ops_ok I -> exists v, epsilon_xc I (lib_impl f_gga_c_pbe) (pbec 1) 3 field_unpol None = Ok (Some v).
Proof.
  intros HI. destruct (pbec_unpol I HI) as (v & Hv). assert (W : well_formed (pbec 1) field_unpol None) by (apply (wf_unpol 1); auto).
  destruct (pbec_returns I 1 field_unpol (or_introl eq_refl) W) as (o & E).
  pose proof (value_unpol I _ f_gga_c_pbe (pbec 1) 3 field_unpol None o W E (pbec_record 1)) as V.
  destruct (Rlt_dec _ _) as [B|_] in V; [exfalso; cbn in B; unfold lin_unpol, origin in B; lra|].
  exists v. rewrite E, V. f_equal. exact Hv.
Qed.

(** ** The samples of FamSamples.v with any parameters *)
Lemma pbe_any ns : any_record (lib_impl f_gga_x_pbe) f_gga_x_pbe ns (pbe ns).
Proof. split; [apply pbe_single|]. split; [reflexivity|]. split; [reflexivity|]. cbn. lra. Qed.
Lemma kapbe_any ns : any_record (lib_impl f_gga_k_apbe) f_gga_k_apbe ns (kapbe ns).
Proof. split; [apply kapbe_single|]. split; [reflexivity|]. split; [reflexivity|]. cbn. lra. Qed.
Lemma sample_positive : positive_pol field_pol.
Proof. split; cbn [f_val field_pol]; rewrite ?lin_pol0, ?lin_pol1; lra. Qed.
Lemma sample_scaled : scaled 2 3 field_pol scaled_pol.
Proof. intros s _. repeat split. intros i _. cbn. lra. Qed.
Lemma scaled_unscreened p : fp_scal p = sample_scalars -> unscreened p scaled_pol.
Proof. intros E. unfold unscreened. rewrite E. cbn [f_val scaled_pol]. rewrite lin_pol0, lin_pol1. cbn. lra. Qed.
