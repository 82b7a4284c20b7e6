(** The statements about formulas, carried over to the callable without conditions on the
    parameters: whenever the calls return numbers, these are related as stated (C01-C05). *)
From Coq Require Import Reals List Bool QArith NArith Arith Lra Lia.
From Verif Require Import Bytes Syntax Parser PostProcess Src Ast Semantics Free Vec Impl ImplThm ImplThm2 ImplThm4 Records
  Families Inputs Library.
Import ListNotations.
Open Scope R_scope.

(** ** Statements *)

(** [p] is a record of the functional [f] in the spin mode [n], with any parameters. *)
Definition any_record (impl : modules) (f : source) (n : nat) (p : func_p) : Prop :=
  single impl p f /\ name_to_type (src_name f) = Ok (fp_type p) /\ fp_nspin p = n /\
  0 < zeta_threshold (fp_scal p) < 1.
Definition positive_pol (rho : field R) : Prop := 0 < f_val rho [0%nat] /\ 0 < f_val rho [1%nat].

(** C01 *)
Definition closed_shell_callable (f : source) : Prop :=
  forall I impl p p' dim rho rho' mo mo' v w,
  any_record impl f 1 p -> any_record impl f 2 p' -> same_functional p p' ->
  well_formed p rho mo -> well_formed p' rho' mo' -> 0 < f_val rho [] -> halves dim rho rho' ->
  (fp_type p = "mgga"%b -> forall s, (s < 2)%nat -> tau_pol dim mo' s = tau_unpol dim mo / 2) ->
  epsilon_xc I impl p dim rho mo = Ok (Some v) -> epsilon_xc I impl p' dim rho' mo' = Ok (Some w) -> v = w.
(** C02 *)
Definition spin_symmetric_callable (f : source) : Prop :=
  forall I impl p dim rho rho' mo mo' v w,
  any_record impl f 2 p -> well_formed p rho mo -> well_formed p rho' mo' -> positive_pol rho -> exchanged dim rho rho' ->
  (fp_type p = "mgga"%b -> tau_pol dim mo' 0 = tau_pol dim mo 1 /\ tau_pol dim mo' 1 = tau_pol dim mo 0) ->
  epsilon_xc I impl p dim rho mo = Ok (Some v) -> epsilon_xc I impl p dim rho' mo' = Ok (Some w) -> v = w.
(** C03 *)
Definition scales_callable (n : nat) (f : source) : Prop :=
  forall I impl p dim rho rho' mo mo' g v w,
  any_record impl f 2 p -> well_formed p rho mo -> well_formed p rho' mo' -> positive_pol rho -> 0 < g -> scaled g dim rho rho' ->
  (fp_type p = "mgga"%b -> forall s, (s < 2)%nat -> tau_pol dim mo' s = g ^ 5 * tau_pol dim mo s) ->
  unscreened p rho -> unscreened p rho' ->
  epsilon_xc I impl p dim rho mo = Ok (Some v) -> epsilon_xc I impl p dim rho' mo' = Ok (Some w) -> w = g ^ n * v.
(** C04 *)
Definition spin_scales_callable (f : source) : Prop :=
  forall I impl p p' dim rho up dn mo mo0 mo1 e u w,
  any_record impl f 2 p -> any_record impl f 1 p' -> same_functional p p' ->
  well_formed p rho mo -> well_formed p' up mo0 -> well_formed p' dn mo1 -> positive_pol rho ->
  doubled 0 dim rho up -> doubled 1 dim rho dn ->
  (fp_type p = "mgga"%b -> tau_unpol dim mo0 = 2 * tau_pol dim mo 0 /\ tau_unpol dim mo1 = 2 * tau_pol dim mo 1) ->
  unscreened p rho -> unclipped p rho ->
  epsilon_xc I impl p dim rho mo = Ok (Some e) ->
  epsilon_xc I impl p' dim up mo0 = Ok (Some u) -> epsilon_xc I impl p' dim dn mo1 = Ok (Some w) ->
  (f_val rho [0%nat] + f_val rho [1%nat]) * e = (f_val up [] * u + f_val dn [] * w) / 2.
(** C05; [pars] are the parameters that need a certain value. *)
Definition uniform_callable (e : R -> R -> R) (pars : list (bstr * Q)) (f : source) : Prop :=
  forall I impl p dim rho mo v,
  any_record impl f 2 p -> has_params (attrs_of p) pars -> well_formed p rho mo -> positive_pol rho -> uniform dim rho ->
  (fp_type p = "mgga"%b -> forall s, (s < 2)%nat -> tau_pol dim mo s = tf (f_val rho [s])) ->
  unscreened p rho -> unclipped p rho ->
  epsilon_xc I impl p dim rho mo = Ok (Some v) ->
  (f_val rho [0%nat] + f_val rho [1%nat]) * v = e (f_val rho [0%nat]) (f_val rho [1%nat]).

(** ** What a returned number is *)
Lemma run_code_value I src e v : run_code I src e = Ok v -> run_text I src e = v.
Proof.
  unfold run_code, run_text. destruct (generated src) as [q|]; [|discriminate].
  destruct (existsb _ _); [discriminate|]. destruct (first_missing _ _); [discriminate|]. intros H. injection H as H. exact H.
Qed.
Section Value.
Variables (I : interp) (impl : modules) (f : source) (p : func_p) (dim : nat) (rho : field R) (mo : option (field complex)) (v : option R).
Hypothesis W : well_formed p rho mo.
Hypothesis E : epsilon_xc I impl p dim rho mo = Ok v.

Lemma value_of n : any_record impl f n p -> nspin_ok p ->
  exists w, call_code I f p (expected_args p dim rho mo None) = Ok w /\
  v = if Rlt_dec (total_at p rho) (dens_threshold (fp_scal p)) then Some 0 else w.
Proof.
  intros (Hs & Ht & _ & _) Hn. pose proof (name_family _ _ Ht) as Hf.
  pose proof (args_ok p dim rho mo None Hf Hn W) as A.
  destruct (call_code I f p (expected_args p dim rho mo None)) as [w|x] eqn:C.
  - exists w. split; [reflexivity|].
    destruct (screening_top I impl p f dim rho mo _ _ Hs Hf Hn A C (total_at p rho)) as [L G].
    + intros K. unfold total_at. rewrite K. reflexivity.
    + intros K. unfold total_at. rewrite K. reflexivity.
    + destruct (Rlt_dec _ _) as [D|D]; [rewrite (L D) in E|rewrite (G (Rnot_lt_le _ _ D)) in E]; injection E as <-; reflexivity.
  - rewrite (epsilon_single I impl p f dim rho mo Hs) in E. unfold impl_invoke in E. rewrite A in E. cbn [rbind] in E. rewrite C in E. discriminate.
Qed.
Lemma value_pol : any_record impl f 2 p ->
  v = if Rlt_dec (f_val rho [0%nat] + f_val rho [1%nat]) (dens_threshold (fp_scal p)) then Some 0
      else pol f I (attrs_of p) (pol_at (fp_type p) dim rho mo).
Proof.
  intros R. pose proof R as (Hs & Ht & Hn & _). destruct (value_of 2 R (or_intror Hn)) as (w & C & V).
  unfold total_at in V. rewrite Hn in V. cbn [Nat.eqb] in V. rewrite V. destruct (Rlt_dec _ _); [reflexivity|].
  unfold call_code in C. rewrite Hn in C. cbn [Nat.eqb] in C. destruct (fa_dens _); [discriminate|]. apply run_code_value in C.
  rewrite <- C. unfold pol. rewrite expected_pol_at by (assumption || eapply name_family; exact Ht). reflexivity.
Qed.
Lemma value_unpol : any_record impl f 1 p ->
  v = if Rlt_dec (f_val rho []) (dens_threshold (fp_scal p)) then Some 0
      else unpol f I (attrs_of p) (unpol_at (fp_type p) dim rho mo).
Proof.
  intros R. pose proof R as (Hs & Ht & Hn & _). destruct (value_of 1 R (or_introl Hn)) as (w & C & V).
  unfold total_at in V. rewrite Hn in V. cbn [Nat.eqb] in V. rewrite V. destruct (Rlt_dec _ _); [reflexivity|].
  unfold call_code in C. rewrite Hn in C. cbn [Nat.eqb] in C. destruct (fa_dens _); [|discriminate]. apply run_code_value in C.
  rewrite <- C. unfold unpol. rewrite expected_unpol_at by (assumption || eapply name_family; exact Ht). reflexivity.
Qed.
End Value.

Lemma zeta_of impl f n p : any_record impl f n p -> zeta_ok (attrs_of p).
Proof. intros (_ & _ & _ & H). exists (zeta_threshold (fp_scal p)). split; [apply attr_zeta|exact H]. Qed.
Lemma pol_at_ok t dim rho mo : positive_pol rho -> pol_ok (pol_at t dim rho mo).
Proof.
  intros [H0 H1]. split; [exact H0|]. split; [exact H1|]. unfold pol_at. cbn [p_s0 p_s2]. unfold when.
  destruct (has_s t); split; cbn [onneg]; try exact Logic.I; apply dot_self_nonneg.
Qed.

(** ** Transfer *)
Section Transfer.
Variable f : source.

Theorem closed_callable : closed_shell_agrees f -> closed_shell_callable f.
Proof.
  intros H I impl p p' dim rho rho' mo mo' v w R R' S W W' P Hh Ht E E'.
  apply (value_unpol I impl f p dim rho mo _ W) in E; [|exact R]. apply (value_pol I impl f p' dim rho' mo' _ W') in E'; [|exact R'].
  rewrite (proj1 (Hh 0%nat ltac:(lia))), (proj1 (Hh 1%nat ltac:(lia))) in E'.
  replace (f_val rho [] / 2 + f_val rho [] / 2) with (f_val rho []) in E' by lra.
  pose proof S as (St & _ & Ss & _). rewrite <- Ss, <- (attrs_same p p' S), <- St in E'.
  destruct (Rlt_dec _ _); [congruence|]. rewrite (closed_args (fp_type p) dim rho rho' mo mo' Hh Ht) in E'.
  refine (H I (attrs_of p) (unpol_at (fp_type p) dim rho mo) (zeta_of _ _ _ _ R) P _ v w (eq_sym E) (eq_sym E')).
  unfold unpol_at. cbn [u_s]. unfold when. destruct (has_s _); [apply dot_self_nonneg|exact Logic.I].
Qed.
Theorem swap_callable : spin_symmetric f -> spin_symmetric_callable f.
Proof.
  intros H I impl p dim rho rho' mo mo' v w R W W' P X HT E E'.
  apply (value_pol I impl f p dim rho mo _ W) in E; [|exact R]. apply (value_pol I impl f p dim rho' mo' _ W') in E'; [|exact R].
  destruct (X 0%nat 1%nat ltac:(lia)) as (V0 & _). destruct (X 1%nat 0%nat ltac:(lia)) as (V1 & _).
  rewrite V0, V1, Rplus_comm in E'. destruct (Rlt_dec _ _); [congruence|]. rewrite (swap_args (fp_type p) dim rho rho' mo mo' X HT) in E'.
  exact (H I (attrs_of p) _ (zeta_of _ _ _ _ R) (pol_at_ok _ dim rho mo P) v w (eq_sym E) (eq_sym E')).
Qed.
Theorem scale_callable n : scales_with n f -> scales_callable n f.
Proof.
  intros H I impl p dim rho rho' mo mo' g v w R W W' P Hg S Ht N N' E E'. pose proof P as [Q0 Q1].
  apply (value_pol I impl f p dim rho mo _ W) in E; [|exact R]. apply (value_pol I impl f p dim rho' mo' _ W') in E'; [|exact R].
  assert (P3 : 0 < g ^ 3) by (apply pow_lt, Hg).
  assert (Q0' : 0 < f_val rho' [0%nat]) by (rewrite (proj1 (S 0%nat ltac:(lia))); apply Rmult_lt_0_compat; assumption).
  assert (Q1' : 0 < f_val rho' [1%nat]) by (rewrite (proj1 (S 1%nat ltac:(lia))); apply Rmult_lt_0_compat; assumption).
  destruct (Rlt_dec _ _) as [B|_] in E; [destruct (unscreened_total p rho Q0 Q1 N B)|].
  destruct (Rlt_dec _ _) as [B|_] in E'; [destruct (unscreened_total p rho' Q0' Q1' N' B)|].
  pose proof (unscreened_above p (fp_type p) dim rho' mo' N') as T'. rewrite (scaled_args (fp_type p) g dim rho rho' mo mo' S Ht) in E', T'.
  exact (H I (attrs_of p) _ g (zeta_of _ _ _ _ R) (pol_at_ok _ dim rho mo P) Hg (unscreened_above p _ dim rho mo N) T' v w (eq_sym E) (eq_sym E')).
Qed.
Theorem spin_callable : spin_scales f -> spin_scales_callable f.
Proof.
  intros H I impl p p' dim rho up dn mo mo0 mo1 e u w R R' S W Wu Wd P Du Dd HT N C E Eu Ed. pose proof P as [Q0 Q1].
  apply (value_pol I impl f p dim rho mo _ W) in E; [|exact R]. apply (value_unpol I impl f p' dim up mo0 _ Wu) in Eu; [|exact R'].
  apply (value_unpol I impl f p' dim dn mo1 _ Wd) in Ed; [|exact R'].
  pose proof S as (St & _ & Ss & _). rewrite <- Ss, <- (attrs_same p p' S), <- St in Eu, Ed.
  rewrite (up_args (fp_type p) dim rho up mo mo0 Du (fun K => proj1 (HT K))) in Eu. rewrite (down_args (fp_type p) dim rho dn mo mo1 Dd (fun K => proj2 (HT K))) in Ed.
  rewrite (proj1 Du) in *. rewrite (proj1 Dd) in *. destruct N as [N0 N1].
  destruct (Rlt_dec _ _) as [B|_] in E; [lra|]. destruct (Rlt_dec _ _) as [B|_] in Eu; [lra|]. destruct (Rlt_dec _ _) as [B|_] in Ed; [lra|].
  refine (H I (attrs_of p) _ (zeta_of _ _ _ _ R) _ (pol_at_ok _ dim rho mo P) (clip p _ dim rho mo C) e u w (eq_sym E) (eq_sym Eu) (eq_sym Ed)).
  eexists. apply attr_dens.
Qed.
Theorem unif_callable e pars : (forall t, name_to_type (src_name f) = Ok t -> reads_family f t) ->
  uniform_limit e pars f -> uniform_callable e pars f.
Proof.
  intros RF H I impl p dim rho mo v R HP W P Hu Ht N C E. pose proof P as [Q0 Q1].
  apply (value_pol I impl f p dim rho mo _ W) in E; [|exact R].
  destruct (Rlt_dec _ _) as [B|_] in E; [destruct (unscreened_total p rho Q0 Q1 N B)|].
  rewrite (uniform_args (fp_type p) dim rho mo Hu Ht), (RF _ (proj1 (proj2 R)) I) in E.
  exact (H I (attrs_of p) _ _ (zeta_of _ _ _ _ R) Q0 Q1 HP (clip p (fp_type p) dim rho mo C) (unscreened_above p (fp_type p) dim rho mo N) v (eq_sym E)).
Qed.
End Transfer.
