(** The correlation energy of Perdew and Zunger, gen_repo/impl/prebuilt/unpol/lda_c_pz.py, jumps where
    the Wigner-Seitz radius is 1 (C39). *)
From Coq Require Import Reals List QArith Qreals Bool Lra Lia.
From Verif Require Import Bytes Syntax Parser PostProcess Src Ast4 Ast Semantics Free RPow Vec Deriv Impl ImplThm ImplThm2 ImplThm4 Records
  Families Interval IntervalThm2 Absint AbsintThm Defined Domains Exact Inputs Library FamExact FamSamples FamLib Smooth SmoothLib SmoothCheck SmoothFam.
Import ListNotations.
Open Scope R_scope.

(** The density whose Wigner-Seitz radius is [s]. *)
Definition wigner_seitz (s : R) : R := 3 / (4 * PI) / s ^ 3.
(** A uniform density of radius 1 + t. *)
Definition swelling (t : R) : field R := Field [] (fun _ => wigner_seitz (1 + t)) (fun _ _ => 0) (fun _ _ _ => 0).

Lemma cbrt_pos x : 0 < x -> 0 < Rcbrt x.
Proof. intros H. unfold Rcbrt. destruct (Rlt_dec 0 x); [apply exp_pos|contradiction]. Qed.
Lemma cbrt_cube x : 0 < x -> Rcbrt x * Rcbrt x * Rcbrt x = x.
Proof.
  intros H. unfold Rcbrt. destruct (Rlt_dec 0 x) as [P|]; [|contradiction]. rewrite <- !Rpower_plus.
  transitivity (Rpower x 1); [f_equal; lra|apply Rpower_1, H].
Qed.
Lemma cube_inj x y : 0 < x -> 0 < y -> x * x * x = y * y * y -> x = y.
Proof. intros Hx Hy E. assert (K : (x - y) * (x * x + x * y + y * y) = 0) by (transitivity (x * x * x - y * y * y); [ring|lra]). apply Rmult_integral in K. destruct K as [K|K]; [lra|nra]. Qed.
Lemma radius n s : 0 < s -> n = wigner_seitz s ->
  Rcbrt 3 * Rcbrt (1 / PI) * (Rcbrt 4 * Rcbrt 4 * (1 / Rcbrt n)) / 4 = s.
Proof.
  intros Hs E. pose proof PI_RGT_0 as HP. assert (P3 : 0 < s * s * s) by (repeat apply Rmult_lt_0_compat; exact Hs).
  assert (Hn : 0 < n) by (rewrite E; unfold wigner_seitz; replace (s ^ 3) with (s * s * s) by ring; repeat apply Rdiv_lt_0_compat; lra).
  assert (H3 : 0 < 3) by lra. assert (H4 : 0 < 4) by lra. assert (Hi : 0 < 1 / PI) by (apply Rdiv_lt_0_compat; lra).
  pose proof (cbrt_cube 3 H3) as E3. pose proof (cbrt_cube 4 H4) as E4. pose proof (cbrt_cube _ Hi) as Ei. pose proof (cbrt_cube n Hn) as En.
  pose proof (cbrt_pos 3 H3) as K3. pose proof (cbrt_pos 4 H4) as K4. pose proof (cbrt_pos _ Hi) as Ki. pose proof (cbrt_pos n Hn) as Kn.
  set (a := Rcbrt 3) in *. set (b := Rcbrt (1 / PI)) in *. set (c := Rcbrt 4) in *. set (d := Rcbrt n) in *.
  assert (Q : a * b = c * d * s).
  { apply cube_inj; [apply Rmult_lt_0_compat; assumption|repeat apply Rmult_lt_0_compat; assumption|].
    transitivity ((a * a * a) * (b * b * b)); [ring|]. transitivity ((c * c * c) * (d * d * d) * (s * s * s)); [|ring].
    rewrite E3, E4, Ei, En, E. unfold wigner_seitz. field. split; lra. }
  rewrite Q. replace (c * d * s * (c * c * (1 / d)) / 4) with ((c * c * c) * s / 4) by (field; lra). rewrite E4. field.
Qed.

Section Value.
Variables (I : interp) (A : attrs) (u : unpol_args) (s g0 g1 a0 a1 b0 b1 x0 x1 y0 y1 c0 c1 d0 d1 z : R).
Hypothesis Hs : 0 < s.
Hypothesis Hn : u_r u = wigner_seitz s.
Hypothesis Pg0 : A "params.gamma[0]"%b = Some g0. Hypothesis Pg1 : A "params.gamma[1]"%b = Some g1.
Hypothesis Pa0 : A "params.a[0]"%b = Some a0. Hypothesis Pa1 : A "params.a[1]"%b = Some a1.
Hypothesis Pb0 : A "params.b[0]"%b = Some b0. Hypothesis Pb1 : A "params.b[1]"%b = Some b1.
Hypothesis Px0 : A "params.beta1[0]"%b = Some x0. Hypothesis Px1 : A "params.beta1[1]"%b = Some x1.
Hypothesis Py0 : A "params.beta2[0]"%b = Some y0. Hypothesis Py1 : A "params.beta2[1]"%b = Some y1.
Hypothesis Pc0 : A "params.c[0]"%b = Some c0. Hypothesis Pc1 : A "params.c[1]"%b = Some c1.
Hypothesis Pd0 : A "params.d[0]"%b = Some d0. Hypothesis Pd1 : A "params.d[1]"%b = Some d1.
Hypothesis Pz : A "p.zeta_threshold"%b = Some z.
Hypothesis Hz : 0 < z < 1.
Hypothesis Nx : 0 <= x0 /\ 0 <= x1 /\ 0 <= y0 /\ 0 <= y1.

Definition pz_branch (g a b x y c d : R) : R :=
  if Rle_dec 1 s then g / (1 + x * sqrt s + y * s) else a * ln s + b + c * s * ln s + d * s.

Lemma step rho x e p v : eval I rho e = Some v -> exec I rho ((x, e) :: p) "res"%b = exec I (upd rho x (Some v)) p "res"%b.
Proof. intros H. cbn [exec]. rewrite H. reflexivity. Qed.
Ltac look := unfold upd; repeat match goal with |- context[beqb ?a ?b] => let v := eval vm_compute in (beqb a b) in change (beqb a b) with v; cbv iota end.
Ltac at_attr := match goal with |- context[unpol_env A u ?x] => rewrite (unpol_attr A u x) by reflexivity end.
Ltac num := unfold Q2R; cbn [Qnum Qden]; try lra.

Lemma q1 : Q2R 1 = 1. Proof. num. Qed. Lemma q2 : Q2R 2 = 2. Proof. num. Qed. Lemma q3 : Q2R 3 = 3. Proof. num. Qed. Lemma q4 : Q2R 4 = 4. Proof. num. Qed.
Lemma n2 : exists r, Req_EM_T 2 0 = right r. Proof. destruct (Req_EM_T 2 0) as [?|r]; [exfalso; lra|exists r; reflexivity]. Qed.
Lemma n4 : exists r, Req_EM_T 4 0 = right r. Proof. destruct (Req_EM_T 4 0) as [?|r]; [exfalso; lra|exists r; reflexivity]. Qed.
Lemma pz_value : unpol f_lda_c_pz I A u = Some (pz_branch g0 a0 b0 x0 y0 c0 d0).
Proof.
  change f_lda_c_pz with (c_src a_lda_c_pz). rewrite result_unpol. unfold result.
  pose proof (radius (u_r u) s Hs Hn) as R. pose proof PI_RGT_0 as HP.
  assert (Kd : 0 < Rcbrt (u_r u)).
  { apply cbrt_pos. rewrite Hn. unfold wigner_seitz. apply Rdiv_lt_0_compat; [apply Rdiv_lt_0_compat; lra|apply pow_lt, Hs]. }
  assert (Kc : 0 < Rcbrt 4) by (apply cbrt_pos; lra).
  assert (V0 : unpol_env A u "r0"%b = Some (VR (u_r u))) by reflexivity.
  set (rho := unpol_env A u) in *.
  set (a := Rcbrt 3) in *. set (b := Rcbrt (1 / PI)) in *. set (c := Rcbrt 4) in *. set (d := Rcbrt (u_r u)) in *.
  change (c_unpol a_lda_c_pz) with ast_unpol_lda_c_pz. unfold ast_unpol_lda_c_pz.
  rewrite (step _ _ _ _ (VR a)); cycle 1. { cbn [eval lift1 fn1_sem]. rewrite q3. reflexivity. }
  rewrite (step _ _ _ _ (VR b)); cycle 1. { cbn [eval lift1 lift2 fn1_sem]. rewrite q1. destruct (Req_EM_T PI 0); [lra|reflexivity]. }
  rewrite (step _ _ _ _ (VR c)); cycle 1. { cbn [eval lift1 fn1_sem]. rewrite q4. reflexivity. }
  rewrite (step _ _ _ _ (VR (c * c))); cycle 1.
  { cbn [eval]. look. rewrite q2. cbn [lift2]. unfold pypow. destruct (Rlt_dec 0 c); [|contradiction]. do 2 f_equal.
    replace 2 with (1 + 1) by lra. rewrite Rpower_plus, Rpower_1 by assumption. reflexivity. }
  rewrite (step _ _ _ _ (VR d)); cycle 1. { cbn [eval]. look. rewrite V0. reflexivity. }
  rewrite (step _ _ _ _ (VR (1 / d))); cycle 1. { cbn [eval]. look. rewrite q1. cbn [lift2]. destruct (Req_EM_T d 0); [lra|reflexivity]. }
  rewrite (step _ _ _ _ (VR (c * c * (1 / d)))); cycle 1. { cbn [eval]. look. reflexivity. }
  rewrite (step _ _ _ _ (VR (a * b * (c * c * (1 / d))))); cycle 1. { cbn [eval]. look. reflexivity. }
  rewrite (step _ _ _ _ (VR s)); cycle 1. { cbn [eval]. look. rewrite q4. cbn [lift2]. destruct (Req_EM_T 4 0); [lra|]. rewrite R. reflexivity. }
  assert (Er : a * b * (c * c * (1 / d)) = 4 * s) by lra. rewrite Er.
  rewrite (step _ _ _ _ (VB (Rleb 1 s))); cycle 1. { cbn [eval]. look. rewrite q1. reflexivity. }
  rewrite (step _ _ _ _ (VR (2 * sqrt s))); cycle 1.
  { cbn [eval]. look. cbn [lift1 fn1_sem]. destruct (Rle_dec 0 (4 * s)); [|lra]. rewrite sqrt_mult by lra.
    replace 4 with (2 * 2) by lra. rewrite sqrt_square by lra. reflexivity. }
  rewrite (step _ _ _ _ (VR (b * (c * c) * (1 / d)))); cycle 1. { cbn [eval]. look. reflexivity. }
  set (m := b * (c * c) * (1 / d)). assert (Em : a * m = 4 * s) by (transitivity (a * b * (c * c * (1 / d))); [unfold m; ring|exact Er]).
  rewrite (step _ _ _ _ (VR (ln s))); cycle 1. { cbn [eval]. look. cbn [lift1 fn1_sem]. destruct (Rlt_dec 0 s); [reflexivity|contradiction]. }
  rewrite (step _ _ _ _ (VR (c * c * (1 / d) * ln s))); cycle 1. { cbn [eval]. look. reflexivity. }
  set (w := c * c * (1 / d) * ln s). assert (Ew : a * b * w = 4 * s * ln s) by (unfold w; rewrite <- Em; unfold m; ring).
  clearbody m w.
  assert (P : forall x v, A x = Some v -> attr_name x = true -> rho x = Some (VR v)) by (intros x v Hv Hx; unfold rho; rewrite (unpol_attr A u x Hx), Hv; reflexivity).
  pose proof (P _ _ Pg0 eq_refl) as RPg0. pose proof (P _ _ Pg1 eq_refl) as RPg1. pose proof (P _ _ Pa0 eq_refl) as RPa0. pose proof (P _ _ Pa1 eq_refl) as RPa1. pose proof (P _ _ Pb0 eq_refl) as RPb0. pose proof (P _ _ Pb1 eq_refl) as RPb1. pose proof (P _ _ Px0 eq_refl) as RPx0. pose proof (P _ _ Px1 eq_refl) as RPx1. pose proof (P _ _ Py0 eq_refl) as RPy0. pose proof (P _ _ Py1 eq_refl) as RPy1. pose proof (P _ _ Pc0 eq_refl) as RPc0. pose proof (P _ _ Pc1 eq_refl) as RPc1. pose proof (P _ _ Pd0 eq_refl) as RPd0. pose proof (P _ _ Pd1 eq_refl) as RPd1. pose proof (P _ _ Pz eq_refl) as RPz.
  destruct n2 as (r2 & N2). destruct n4 as (q & N4).
  clearbody rho a b c d.
  assert (T : forall x y, 0 <= x -> 0 <= y -> 0 < 1 + x * sqrt s + y * s).
  { intros x y Hx Hy. pose proof (sqrt_pos s). assert (0 <= x * sqrt s) by (apply Rmult_le_pos; assumption). assert (0 <= y * s) by (apply Rmult_le_pos; lra). lra. }
  assert (TT : forall x y, 1 + x * (2 * sqrt s) / 2 + y * a * m / 4 = 1 + x * sqrt s + y * s).
  { intros x y. replace (y * a * m) with (y * (a * m)) by ring. rewrite Em. field. }
  assert (TF : forall aa bb cc dd, aa * ln s + bb + cc * a * b * w / 4 + dd * a * m / 4 = aa * ln s + bb + cc * s * ln s + dd * s).
  { intros aa bb cc dd. replace (cc * a * b * w) with (cc * (a * b * w)) by ring. replace (dd * a * m) with (dd * (a * m)) by ring. rewrite Em, Ew. field. }
  destruct Nx as (X0 & X1 & Y0 & Y1).
  rewrite (step _ _ _ _ (VR (pz_branch g0 a0 b0 x0 y0 c0 d0))); cycle 1.
  { cbn [eval]. look. rewrite ?RPg0, ?RPa0, ?RPb0, ?RPx0, ?RPy0, ?RPc0, ?RPd0, ?q1, ?q2, ?q4. cbn [lift2 lift1]. rewrite N2, N4. cbn [lift2 lift1]. rewrite TT, TF. unfold pz_branch, Rleb.
    pose proof (T x0 y0 X0 Y0). destruct (Rle_dec 1 s); [|reflexivity]. destruct (Req_EM_T (1 + x0 * sqrt s + y0 * s) 0); [exfalso; lra|reflexivity]. }
  rewrite (step _ _ _ _ (VR (pz_branch g1 a1 b1 x1 y1 c1 d1))); cycle 1.
  { cbn [eval]. look. rewrite ?RPg1, ?RPa1, ?RPb1, ?RPx1, ?RPy1, ?RPc1, ?RPd1, ?q1, ?q2, ?q4. cbn [lift2 lift1]. rewrite N2, N4. cbn [lift2 lift1]. rewrite TT, TF. unfold pz_branch, Rleb.
    pose proof (T x1 y1 X1 Y1). destruct (Rle_dec 1 s); [|reflexivity]. destruct (Req_EM_T (1 + x1 * sqrt s + y1 * s) 0); [exfalso; lra|reflexivity]. }
  rewrite (step _ _ _ _ (VR (Rcbrt z))); cycle 1. { cbn [eval]. look. rewrite RPz. reflexivity. }
  rewrite (step _ _ _ _ (VR 1)); cycle 1.
  { cbn [eval]. look. rewrite RPz, q1. cbn [lift2 cmp_sem]. unfold Rleb. destruct (Rle_dec 1 z); [exfalso; lra|]. reflexivity. }
  rewrite (step _ _ _ _ (VR (Rcbrt 2))); cycle 1. { cbn [eval]. look. rewrite q2. reflexivity. }
  assert (K2 : 1 < Rcbrt 2).
  { pose proof (cbrt_cube 2 Rlt_0_2). pose proof (cbrt_pos 2 Rlt_0_2). apply Rnot_le_lt. intros L. assert (Rcbrt 2 * Rcbrt 2 <= 1) by nra. nra. }
  rewrite (step _ _ _ _ (VR (pz_branch g0 a0 b0 x0 y0 c0 d0))); cycle 1.
  { cbn [eval]. look. rewrite ?q2. cbn [lift2]. clear N2 N4. destruct (Req_EM_T _ 0); [exfalso; lra|]. do 2 f_equal. field. lra. }
  reflexivity.
Qed.
End Value.

(** ** The jump *)
Lemma der_ln g : derives g -> 0 < g 0 -> derives (fun t => ln (g t)).
Proof. intros (l & H) P. exists (/ g 0 * l). exact (derivable_pt_lim_comp g ln 0 l (/ g 0) H (derivable_pt_lim_ln (g 0) P)). Qed.
Lemma der_id : derives (fun t => t). Proof. exists 1. exact (derivable_pt_lim_id 0). Qed.
Lemma der_swell : derives (fun t => 1 + t). Proof. apply der_plus; [apply der_const|apply der_id]. Qed.
Lemma der_seitz : derives (fun t => wigner_seitz (1 + t)).
Proof.
  unfold wigner_seitz. apply der_quot; [apply der_const| |replace ((1 + 0) ^ 3) with 1 by ring; lra].
  apply (der_ext (fun t => (1 + t) * ((1 + t) * (1 + t)))); [intros t; ring|].
  apply der_mult; [|apply der_mult]; apply der_swell.
Qed.
Lemma seitz_pos s : 0 < s -> 0 < wigner_seitz s.
Proof. intros H. pose proof PI_RGT_0. unfold wigner_seitz. apply Rdiv_lt_0_compat; [apply Rdiv_lt_0_compat; lra|apply pow_lt, H]. Qed.
Lemma swelling_path : path swelling.
Proof. split; [reflexivity|]. split; [|split]; intros; cbn [swelling f_val f_jac f_hess]; [apply der_seitz|apply der_const|apply der_const]. Qed.
Lemma pz_ready : ready d_lda_c_pz f_lda_c_pz.
Proof. assert (M : In (f_lda_c_pz, d_lda_c_pz) ready_functionals) by in_list. exact (proj1 (Forall_forall _ _) ready_functionals_holds _ M). Qed.

Section Jump.
Variables (I : interp) (impl : modules) (p : func_p) (dim : nat) (g b x y d : R).
Hypothesis Rp : record_for impl f_lda_c_pz d_lda_c_pz 1 p.
Hypothesis Pg : fp_params p "gamma[0]"%b = Some g. Hypothesis Pb : fp_params p "b[0]"%b = Some b.
Hypothesis Px : fp_params p "beta1[0]"%b = Some x. Hypothesis Py : fp_params p "beta2[0]"%b = Some y.
Hypothesis Pd : fp_params p "d[0]"%b = Some d.
Hypothesis Hd : dens_threshold (fp_scal p) < wigner_seitz 1.
Hypothesis Hj : g / (1 + x + y) <> b + d.

Lemma pz_values : exists a c, forall t, -1 < t -> dens_threshold (fp_scal p) <= wigner_seitz (1 + t) ->
  epsilon_xc I impl p dim (swelling t) None = Ok (Some (pz_branch (1 + t) g a b x y c d)).
Proof.
  pose proof Rp as (_ & Ht & Hn & (Z & _ & Q)).
  assert (K : forall n s, In (n, s) (d_pars d_lda_c_pz) -> exists v, attrs_of p n = Some v /\ sat_sort s v) by exact Q.
  destruct (K "params.a[0]"%b SAny) as (a0 & A0 & _); [unfold d_lda_c_pz; cbn [d_pars]; in_list|]. destruct (K "params.a[1]"%b SAny) as (a1 & A1 & _); [unfold d_lda_c_pz; cbn [d_pars]; in_list|].
  destruct (K "params.b[1]"%b SAny) as (b1 & B1 & _); [unfold d_lda_c_pz; cbn [d_pars]; in_list|].
  destruct (K "params.c[0]"%b SAny) as (c0 & C0 & _); [unfold d_lda_c_pz; cbn [d_pars]; in_list|]. destruct (K "params.c[1]"%b SAny) as (c1 & C1 & _); [unfold d_lda_c_pz; cbn [d_pars]; in_list|].
  destruct (K "params.d[1]"%b SAny) as (d1 & D1 & _); [unfold d_lda_c_pz; cbn [d_pars]; in_list|]. destruct (K "params.gamma[1]"%b SAny) as (g1 & G1 & _); [unfold d_lda_c_pz; cbn [d_pars]; in_list|].
  destruct (K "params.beta1[0]"%b SNonneg) as (x0 & X0 & N0); [unfold d_lda_c_pz; cbn [d_pars]; in_list|]. destruct (K "params.beta1[1]"%b SNonneg) as (x1 & X1 & N1); [unfold d_lda_c_pz; cbn [d_pars]; in_list|].
  destruct (K "params.beta2[0]"%b SNonneg) as (y0 & Y0 & M0); [unfold d_lda_c_pz; cbn [d_pars]; in_list|]. destruct (K "params.beta2[1]"%b SNonneg) as (y1 & Y1 & M1); [unfold d_lda_c_pz; cbn [d_pars]; in_list|].
  change (fp_params p "beta1[0]"%b = Some x0) in X0. rewrite Px in X0. injection X0 as <-.
  change (fp_params p "beta2[0]"%b = Some y0) in Y0. rewrite Py in Y0. injection Y0 as <-.
  destruct Z as (z & Z & Hz). exists a0, c0. intros t Ht1 Hd1.
  assert (T : fp_type p = "lda"%b) by (change (Ok "lda"%b = Ok (fp_type p)) in Ht; congruence).
  rewrite (eval_unpol d_lda_c_pz f_lda_c_pz (proj1 pz_ready) I impl p dim (swelling t) None Rp).
  - cbn [swelling f_val]. destruct (Rlt_dec _ _) as [L|]; [exfalso; lra|]. do 1 f_equal.
    refine (pz_value I (attrs_of p) (unpol_at (fp_type p) dim (swelling t) None) (1 + t) g g1 a0 a1 b b1 x x1 y y1 c0 c1 d d1 z _ eq_refl Pg G1 A0 A1 Pb B1 Px X1 Py Y1 C0 C1 Pd D1 Z Hz _); [lra|].
    cbn [sat_sort] in *. auto.
  - split; [reflexivity|]. split; [intros E; rewrite Hn in E; discriminate|]. intros E. rewrite T in E. discriminate.
Qed.
Theorem pz_jumps : ~ differentiable (fun t => epsilon_xc I impl p dim (swelling t) None).
Proof.
  intros (h & (l & Hh) & N). destruct pz_values as (a & c & V).
  set (k := fun t => a * ln (1 + t) + b + c * (1 + t) * ln (1 + t) + d * (1 + t)).
  assert (L : derives (fun t => ln (1 + t))) by (apply (der_ln (fun t => 1 + t)); [apply der_swell|lra]).
  assert (Dk : derives k).
  { unfold k. apply der_plus; [apply der_plus; [apply der_plus|]|]; try apply der_const.
    - apply der_mult; [apply der_const|exact L].
    - apply der_mult; [apply der_mult; [apply der_const|apply der_swell]|exact L].
    - apply der_mult; [apply der_const|apply der_swell]. }
  destruct Dk as (m & Hk).
  assert (T0 : dens_threshold (fp_scal p) < wigner_seitz (1 + 0)) by (rewrite Rplus_0_r; exact Hd).
  assert (G0 : h 0 = g / (1 + x + y)).
  { pose proof (near_0 _ N) as E. cbv beta in E. rewrite V in E by lra. injection E as E. rewrite <- E. unfold pz_branch.
    destruct (Rle_dec 1 (1 + 0)); [|lra]. rewrite Rplus_0_r, sqrt_1. f_equal. ring. }
  assert (K0 : k 0 = b + d). { unfold k. rewrite Rplus_0_r, ln_1. ring. }
  set (e := Rabs (g / (1 + x + y) - (b + d)) / 2).
  assert (He : 0 < e) by (unfold e; pose proof (Rabs_pos_lt (g / (1 + x + y) - (b + d)) ltac:(lra)); lra).
  assert (M : near (fun t => dens_threshold (fp_scal p) < wigner_seitz (1 + t))) by (apply near_gt; [apply der_const|apply der_seitz|exact T0]).
  destruct (near_and _ _ (near_and _ _ N M) (near_and _ _ (near_close h l e Hh He) (near_close k m e Hk He))) as (r & Hr & F).
  set (t := - Rmin (r / 2) (1 / 2)).
  assert (Ht : -1 < t < 0 /\ Rabs t < r).
  { unfold t. pose proof (Rmin_l (r / 2) (1 / 2)). pose proof (Rmin_r (r / 2) (1 / 2)). assert (0 < Rmin (r / 2) (1 / 2)) by (apply Rmin_pos; lra).
    split; [lra|]. rewrite Rabs_left by lra. lra. }
  destruct Ht as [Ht Hr2]. destruct (F t Hr2) as [[E W] [C1 C2]]. rewrite V in E by lra. injection E as E.
  unfold pz_branch in E. destruct (Rle_dec 1 (1 + t)); [lra|]. fold (k t) in E. rewrite <- E in C1. rewrite G0 in C1. rewrite K0 in C2.
  unfold e in C1, C2. revert C1 C2. unfold Rabs. repeat destruct (Rcase_abs _); lra.
Qed.
End Jump.

(** The numbers of Perdew and Zunger as libxc has them. *)
Definition pz_published : list (bstr * R) := [("gamma[0]", -1423 / 10000); ("gamma[1]", -843 / 10000);
  ("beta1[0]", 10529 / 10000); ("beta1[1]", 13981 / 10000); ("beta2[0]", 3334 / 10000); ("beta2[1]", 2611 / 10000);
  ("a[0]", 311 / 10000); ("a[1]", 1555 / 100000); ("b[0]", -48 / 1000); ("b[1]", -269 / 10000);
  ("c[0]", 20 / 10000); ("c[1]", 7 / 10000); ("d[0]", -116 / 10000); ("d[1]", -48 / 10000)]%b.
Definition pz : func_p := lib_record f_lda_c_pz "lda" 1 pz_published.
Lemma pz_record : record_for (lib_impl f_lda_c_pz) f_lda_c_pz d_lda_c_pz 1 pz.
Proof.
  split; [split; [discriminate|split; [discriminate|reflexivity]]|]. split; [reflexivity|]. split; [reflexivity|].
  split; [exists (/ 1000); split; [reflexivity|lra]|]. split; [exists (/ 100); reflexivity|].
  intros x s. unfold d_lda_c_pz. cbn [d_pars In]. intros E.
  repeat (destruct E as [E|E]; [injection E as <- <-; eexists; (split; [reflexivity|]); cbn [sat_sort]; try exact Logic.I; lra|]). contradiction.
Qed.
Lemma pz_thick : dens_threshold (fp_scal pz) < wigner_seitz 1.
Proof.
  change (/ 100 < wigner_seitz 1). unfold wigner_seitz. pose proof PI_4. pose proof PI_RGT_0.
  replace (3 / (4 * PI) / 1 ^ 3) with (3 * / (4 * PI)) by (field; lra).
  assert (/ 16 <= / (4 * PI)) by (apply Rinv_le_contravar; lra). lra.
Qed.
