(** The operations of a formula are those of analysis: relations between operands and result that do
    not mention the evaluator, and the proof that the evaluator realises them. *)
From Coq Require Import Reals List QArith Bool Arith ZArith Lra Lia.
From Verif Require Import Bytes Syntax Parser PostProcess Semantics IntervalThm2.
Import ListNotations.
Open Scope R_scope.

(** ** Functions of one number: the result [y] at [x], if there is one *)
Definition is_sqrt (x y : R) : Prop := 0 <= y /\ y * y = x.
Definition is_exp (x y : R) : Prop := 0 < y /\ ln y = x.
Definition is_log (x y : R) : Prop := exp y = x.
Definition is_cbrt (x y : R) : Prop := y * y * y = x.
Definition is_atan (x y : R) : Prop := - PI / 2 < y < PI / 2 /\ sin y = x * cos y.
Definition is_asinh (x y : R) : Prop := exp y - exp (- y) = 2 * x.
Definition is_tanh (x y : R) : Prop := exp x - exp (- x) = y * (exp x + exp (- x)).
Definition is_atanh (x y : R) : Prop := is_tanh y x.
Definition is_cosh (x y : R) : Prop := 2 * y = exp x + exp (- x).
Definition is_sin (x y : R) : Prop := y = sin x.
Definition is_cos (x y : R) : Prop := y = cos x.
Definition is_abs (x y : R) : Prop := 0 <= y /\ (y = x \/ y = - x).
Definition is_step (x y : R) : Prop := (0 <= x /\ y = 1) \/ (x < 0 /\ y = 0).

Definition realises (f : fn1) (r : R -> R -> Prop) : Prop := forall I x y, fn1_sem I f x = Some y <-> r x y.
Ltac one := let E := fresh "E" in intros E; injection E as <-.
Lemma real_sqrt : realises FSqrt is_sqrt.
Proof.
  intros I x y. unfold is_sqrt. cbn [fn1_sem]. destruct (Rle_dec 0 x) as [P|P]; split.
  - one. split; [apply sqrt_pos|apply sqrt_sqrt, P].
  - intros [Y <-]. f_equal. apply sqrt_square, Y.
  - discriminate.
  - intros [Y <-]. exfalso. apply P. pose proof (Rle_0_sqr y). unfold Rsqr in *. lra.
Qed.
Lemma real_exp : realises FExp is_exp.
Proof.
  intros I x y. unfold is_exp. cbn [fn1_sem]. split.
  - one. split; [apply exp_pos|apply ln_exp].
  - intros [Y <-]. f_equal. apply exp_ln, Y.
Qed.
Lemma real_log : realises FLog is_log.
Proof.
  intros I x y. unfold is_log. cbn [fn1_sem]. destruct (Rlt_dec 0 x) as [P|P]; split.
  - one. apply exp_ln, P.
  - intros <-. f_equal. apply ln_exp.
  - discriminate.
  - intros <-. destruct (P (exp_pos y)).
Qed.
Lemma third_cubed x : 0 < x -> Rpower x (1 / 3) * Rpower x (1 / 3) * Rpower x (1 / 3) = x.
Proof. intros H. rewrite <- !Rpower_plus. replace (1 / 3 + 1 / 3 + 1 / 3) with 1 by lra. apply Rpower_1, H. Qed.
Lemma cube_injective y z : y * y * y = z * z * z -> y = z.
Proof.
  intros H. assert (F : (y - z) * (y * y + y * z + z * z) = 0) by lra. apply Rmult_integral in F. destruct F as [F|F]; [lra|].
  pose proof (Rle_0_sqr (y + z / 2)) as A. pose proof (Rle_0_sqr (z + y / 2)) as B. unfold Rsqr in A, B.
  assert (Z : Rsqr z = 0) by (pose proof (Rle_0_sqr z); unfold Rsqr in *; lra). assert (Y : Rsqr y = 0) by (pose proof (Rle_0_sqr y); unfold Rsqr in *; lra).
  apply Rsqr_0_uniq in Z, Y. lra.
Qed.
Lemma cbrt_cubed x : Rcbrt x * Rcbrt x * Rcbrt x = x.
Proof.
  unfold Rcbrt. destruct (Rlt_dec 0 x) as [P|P]; [apply third_cubed, P|]. destruct (Req_EM_T x 0) as [->|N]; [lra|].
  assert (Q : 0 < - x) by lra. pose proof (third_cubed _ Q) as T. set (u := Rpower (- x) (1 / 3)) in *. nra.
Qed.
Lemma real_cbrt : realises FCbrt is_cbrt.
Proof.
  intros I x y. unfold is_cbrt. cbn [fn1_sem]. split.
  - one. apply cbrt_cubed.
  - intros <-. f_equal. apply cube_injective, cbrt_cubed.
Qed.
Lemma real_atan : realises FAtan is_atan.
Proof.
  intros I x y. unfold is_atan. cbn [fn1_sem]. split.
  - one. pose proof (atan_bound x) as B. split; [lra|]. pose proof (tan_atan x) as T.
    assert (C : 0 < cos (atan x)) by (apply cos_gt_0; lra). rewrite <- T at 2. unfold tan. field. lra.
  - intros [B E]. f_equal. assert (C : 0 < cos y) by (apply cos_gt_0; lra).
    rewrite <- (atan_tan y) by lra. f_equal. unfold tan. rewrite E. field. lra.
Qed.
Lemma asinh_injective y z : exp y - exp (- y) = exp z - exp (- z) -> y = z.
Proof.
  intros H. destruct (Rtotal_order y z) as [L|[E|L]]; [|exact E|].
  - pose proof (exp_increasing _ _ L). assert (N : - z < - y) by lra. apply exp_increasing in N. lra.
  - assert (L' : z < y) by lra. pose proof (exp_increasing _ _ L'). assert (N : - y < - z) by lra. apply exp_increasing in N. lra.
Qed.
Lemma real_asinh : realises FAsinh is_asinh.
Proof.
  intros I x y. unfold is_asinh. cbn [fn1_sem].
  assert (S : exp (arcsinh x) - exp (- arcsinh x) = 2 * x) by (pose proof (sinh_arcsinh x) as S; unfold sinh in S; lra). split.
  - one. exact S.
  - intros E. f_equal. apply asinh_injective. lra.
Qed.
Lemma real_tanh : realises FTanh is_tanh.
Proof.
  intros I x y. unfold is_tanh. cbn [fn1_sem]. unfold tanh, sinh, cosh. pose proof (exp_pos x). pose proof (exp_pos (- x)). split.
  - one. field. lra.
  - intros E. f_equal. replace (exp x - exp (- x)) with (y * (exp x + exp (- x))) by lra. field. lra.
Qed.
Lemma real_cosh : realises FCosh is_cosh.
Proof. intros I x y. unfold is_cosh. cbn [fn1_sem]. unfold cosh. split; [one; lra|]. intros E. f_equal. lra. Qed.
Lemma atanh_tanh x : -1 < x < 1 -> is_tanh (Ratanh x) x.
Proof.
  intros B. unfold is_tanh, Ratanh. set (q := (1 + x) / (1 - x)). assert (Q : 0 < q) by (apply Rdiv_lt_0_compat; lra).
  set (u := exp (ln q / 2)). assert (U : 0 < u) by apply exp_pos. assert (UU : u * u = q).
  { unfold u. rewrite <- exp_plus. replace (ln q / 2 + ln q / 2) with (ln q) by lra. apply exp_ln, Q. }
  rewrite exp_Ropp. fold u. assert (D : u * u * (1 - x) = 1 + x) by (rewrite UU; unfold q; field; lra).
  apply (Rmult_eq_reg_r u); [|lra]. replace ((u - / u) * u) with (u * u - 1) by (field; lra).
  replace (x * (u + / u) * u) with (x * (u * u + 1)) by (field; lra). lra.
Qed.
Lemma tanh_injective y z x : is_tanh y x -> is_tanh z x -> y = z.
Proof.
  unfold is_tanh. intros A B. pose proof (exp_pos y). pose proof (exp_pos z). rewrite !exp_Ropp in *.
  assert (EA : exp y * exp y * (1 - x) = 1 + x).
  { apply (Rmult_eq_compat_r (exp y)) in A. replace ((exp y - / exp y) * exp y) with (exp y * exp y - 1) in A by (field; lra).
    replace (x * (exp y + / exp y) * exp y) with (x * (exp y * exp y + 1)) in A by (field; lra). lra. }
  assert (EB : exp z * exp z * (1 - x) = 1 + x).
  { apply (Rmult_eq_compat_r (exp z)) in B. replace ((exp z - / exp z) * exp z) with (exp z * exp z - 1) in B by (field; lra).
    replace (x * (exp z + / exp z) * exp z) with (x * (exp z * exp z + 1)) in B by (field; lra). lra. }
  apply exp_inv. assert (N : 1 - x <> 0) by (intros N; rewrite N in EA; lra).
  assert (F : (exp y - exp z) * (exp y + exp z) = 0) by (apply (Rmult_eq_reg_r (1 - x)); [lra|exact N]).
  apply Rmult_integral in F. destruct F; lra.
Qed.
Lemma real_atanh : realises FAtanh is_atanh.
Proof.
  intros I x y. unfold is_atanh. cbn [fn1_sem]. destruct (Rlt_dec (Rabs x) 1) as [P|P]; split.
  - one. apply atanh_tanh. apply Rabs_def2 in P. lra.
  - intros E. f_equal. apply (tanh_injective _ _ x); [|exact E]. apply atanh_tanh. apply Rabs_def2 in P. lra.
  - discriminate.
  - intros E. exfalso. apply P. unfold is_tanh in E. pose proof (exp_pos y). pose proof (exp_pos (- y)). apply Rabs_def1; nra.
Qed.
Lemma real_sin : realises FSin is_sin. Proof. intros I x y. unfold is_sin. cbn [fn1_sem]. split; [one; reflexivity|congruence]. Qed.
Lemma real_cos : realises FCos is_cos. Proof. intros I x y. unfold is_cos. cbn [fn1_sem]. split; [one; reflexivity|congruence]. Qed.
Lemma real_abs : realises FAbs is_abs.
Proof.
  intros I x y. unfold is_abs. cbn [fn1_sem]. split.
  - one. split; [apply Rabs_pos|]. unfold Rabs. destruct (Rcase_abs x); auto.
  - intros [Y E]. f_equal. unfold Rabs. destruct (Rcase_abs x); destruct E; lra.
Qed.
Lemma real_step : realises FHeaviside is_step.
Proof.
  intros I x y. unfold is_step. cbn [fn1_sem]. destruct (Rle_dec 0 x) as [P|P]; split.
  - one. auto.
  - intros [[_ ->]|[N _]]; [reflexivity|lra].
  - one. right. split; [lra|reflexivity].
  - intros [[N _]|[_ ->]]; [lra|reflexivity].
Qed.

(** ** Operators *)
Definition is_power (x y z : R) : Prop :=
  (0 < x /\ z = exp (y * ln x)) \/ (x = 0 /\ 0 < y /\ z = 0) \/ (x = 0 /\ y = 0 /\ z = 1) \/
  (x < 0 /\ exists n : Z, y = IZR n /\ z = powerRZ x n).
Lemma real_power x y z : pypow x y = Some z <-> is_power x y z.
Proof.
  unfold is_power, pypow. destruct (Rlt_dec 0 x) as [P|P].
  { split; [one; left; split; [exact P|reflexivity]|]. intros [[_ ->]|[[N _]|[[N _]|[N _]]]]; [reflexivity|lra|lra|lra]. }
  destruct (Req_EM_T y (IZR (Int_part y))) as [E|E]; (destruct (Req_EM_T x 0) as [->|N]; [destruct (Rlt_dec 0 y) as [Y|Y]|]).
  - split; [one; auto 7|]. intros [[N _]|[[_ [_ ->]]|[[_ [N _]]|[N _]]]]; [lra|reflexivity|lra|lra].
  - destruct (Req_EM_T y 0) as [Z|Z]; split.
    + one. auto 7.
    + intros [[N _]|[[_ [N _]]|[[_ [_ ->]]|[N _]]]]; [lra|lra|reflexivity|lra].
    + discriminate.
    + intros [[N _]|[[_ [N _]]|[[_ [N _]]|[N _]]]]; lra.
  - split.
    + one. do 3 right. split; [lra|]. exists (Int_part y). split; [exact E|reflexivity].
    + intros [[F _]|[[F _]|[[F _]|[_ (n & -> & ->)]]]]; [lra|lra|lra|]. rewrite Int_part_IZR. reflexivity.
  - split; [one; auto 7|]. intros [[N _]|[[_ [_ ->]]|[[_ [N _]]|[N _]]]]; [lra|reflexivity|lra|lra].
  - split; [discriminate|]. intros [[N _]|[[_ [N _]]|[[_ [N _]]|[N _]]]]; [lra|lra| |lra].
    exfalso. apply E. rewrite N. rewrite (Int_part_IZR 0). reflexivity.
  - split; [discriminate|]. intros [[F _]|[[F _]|[[F _]|[_ (n & F & _)]]]]; [lra|lra|lra|].
    exfalso. apply E. rewrite F, Int_part_IZR. reflexivity.
Qed.

(** ** Lines *)
(** The line [y = f(x)] gives [y] the values [r] relates to [x]. *)
Definition line1 (v : vocabulary) (f : bstr) (r : R -> R -> Prop) : Prop :=
  exists e, parse_line v ("y = " +++ f +++ "(x)")%b = Some ("y"%b, e) /\
  forall I rho x, rho "x"%b = Some (VR x) -> forall w, eval I rho e = Some w <-> exists y, w = VR y /\ r x y.
(** The line [y = a op b]. *)
Definition line2 (v : vocabulary) (op : bstr) (r : R -> R -> R -> Prop) : Prop :=
  exists e, parse_line v ("y = a" +++ op +++ "b")%b = Some ("y"%b, e) /\
  forall I rho a b, rho "a"%b = Some (VR a) -> rho "b"%b = Some (VR b) -> forall w, eval I rho e = Some w <-> exists y, w = VR y /\ r a b y.
Definition line_test (v : vocabulary) (op : bstr) (r : R -> R -> Prop) : Prop :=
  exists e, parse_line v ("y = a" +++ op +++ "b")%b = Some ("y"%b, e) /\
  forall I rho a b, rho "a"%b = Some (VR a) -> rho "b"%b = Some (VR b) -> exists t, eval I rho e = Some (VB t) /\ (t = true <-> r a b).
Lemma line1_ok v f g r : (exists e, parse_line v ("y = " +++ f +++ "(x)")%b = Some ("y"%b, e) /\ e = EFn1 g (EVar "x")) -> realises g r -> line1 v f r.
Proof.
  intros (e & P & ->) H. exists (EFn1 g (EVar "x")). split; [exact P|]. intros I rho x X w. cbn [eval]. rewrite X. cbn [lift1].
  destruct (fn1_sem I g x) as [y|] eqn:E; split.
  - intros K. injection K as <-. exists y. split; [reflexivity|]. apply (H I), E.
  - intros (z & -> & Z). apply (H I) in Z. congruence.
  - discriminate.
  - intros (z & -> & Z). apply (H I) in Z. congruence.
Qed.
Definition maple_functions : list (bstr * (R -> R -> Prop)) := [
  ("math.sqrt", is_sqrt); ("math.exp", is_exp); ("math.log", is_log); ("math.atan", is_atan); ("math.asinh", is_asinh); ("math.atanh", is_atanh);
  ("math.tanh", is_tanh); ("math.cosh", is_cosh); ("math.sin", is_sin); ("math.cos", is_cos); ("abs", is_abs); ("Heaviside", is_step)]%b.
Definition jax_functions : list (bstr * (R -> R -> Prop)) := [
  ("jnp.sqrt", is_sqrt); ("jnp.exp", is_exp); ("jnp.log", is_log); ("jnp.cbrt", is_cbrt); ("jnp.arctan", is_atan); ("jnp.arcsinh", is_asinh);
  ("jnp.arctanh", is_atanh); ("jnp.tanh", is_tanh); ("jnp.cosh", is_cosh); ("jnp.sin", is_sin); ("jnp.cos", is_cos); ("jnp.abs", is_abs);
  ("Heaviside", is_step)]%b.
Definition arithmetic : list (bstr * (R -> R -> R -> Prop)) := [
  (" + ", fun a b y => y = a + b); (" - ", fun a b y => y = a - b); (" * ", fun a b y => y = a * b);
  (" / ", fun a b y => b <> 0 /\ y * b = a); (" ** ", is_power)]%b.
Definition tests : list (bstr * (R -> R -> Prop)) := [(" <= ", Rle); (" < ", Rlt); (" == ", fun a b => a = b)]%b.
Ltac named := eapply line1_ok; [eexists; split; [vm_compute; reflexivity|reflexivity]|].
Lemma maple_functions_ok : Forall (fun p => line1 raw_voc (fst p) (snd p)) maple_functions.
Proof.
  unfold maple_functions.
  repeat apply Forall_cons; try apply Forall_nil; cbn [fst snd]; named; first
    [exact real_sqrt|exact real_exp|exact real_log|exact real_atan|exact real_asinh|exact real_atanh|exact real_tanh|exact real_cosh
    |exact real_sin|exact real_cos|exact real_abs|exact real_step].
Qed.
Lemma jax_functions_ok : Forall (fun p => line1 jax_voc (fst p) (snd p)) jax_functions.
Proof.
  unfold jax_functions.
  repeat apply Forall_cons; try apply Forall_nil; cbn [fst snd]; named; first
    [exact real_sqrt|exact real_exp|exact real_log|exact real_cbrt|exact real_atan|exact real_asinh|exact real_atanh|exact real_tanh|exact real_cosh
    |exact real_sin|exact real_cos|exact real_abs|exact real_step].
Qed.
Lemma line2_ok v op (r : R -> R -> R -> Prop) e f : parse_line v ("y = a" +++ op +++ "b")%b = Some ("y"%b, e) ->
  (forall I rho, eval I rho e = lift2 f (rho "a"%b) (rho "b"%b)) -> (forall a b y, f a b = Some y <-> r a b y) -> line2 v op r.
Proof.
  intros P E H. exists e. split; [exact P|]. intros I rho a b A B w. rewrite E, A, B. cbn [lift2].
  destruct (f a b) as [y|] eqn:F; split.
  - intros K. injection K as <-. exists y. split; [reflexivity|]. apply H, F.
  - intros (z & -> & Z). apply H in Z. congruence.
  - discriminate.
  - intros (z & -> & Z). apply H in Z. congruence.
Qed.
Lemma arithmetic_ok v : v = raw_voc \/ v = jax_voc -> Forall (fun p => line2 v (fst p) (snd p)) arithmetic.
Proof.
  intros V. unfold arithmetic. repeat apply Forall_cons; try apply Forall_nil; cbn [fst snd].
  - apply (line2_ok v _ _ (EAdd (EVar "a") (EVar "b")) (fun x y => Some (x + y))); [destruct V; subst v; vm_compute; reflexivity|reflexivity|].
    intros a b y. split; [one; reflexivity|congruence].
  - apply (line2_ok v _ _ (ESub (EVar "a") (EVar "b")) (fun x y => Some (x - y))); [destruct V; subst v; vm_compute; reflexivity|reflexivity|].
    intros a b y. split; [one; reflexivity|congruence].
  - apply (line2_ok v _ _ (EMul (EVar "a") (EVar "b")) (fun x y => Some (x * y))); [destruct V; subst v; vm_compute; reflexivity|reflexivity|].
    intros a b y. split; [one; reflexivity|congruence].
  - apply (line2_ok v _ _ (EDiv (EVar "a") (EVar "b")) (fun x y => if Req_EM_T y 0 then None else Some (x / y))); [destruct V; subst v; vm_compute; reflexivity|reflexivity|].
    intros a b y. destruct (Req_EM_T b 0) as [Z|N]; split; [discriminate|intros [N _]; contradiction|one; split; [exact N|field; exact N]|].
    intros [_ <-]. f_equal. field. exact N.
  - apply (line2_ok v _ _ (EPow (EVar "a") (EVar "b")) pypow); [destruct V; subst v; vm_compute; reflexivity|reflexivity|exact real_power].
Qed.
Lemma tests_ok v : v = raw_voc \/ v = jax_voc -> Forall (fun p => line_test v (fst p) (snd p)) tests.
Proof.
  intros V. unfold tests. repeat apply Forall_cons; try apply Forall_nil; cbn [fst snd].
  - exists (ECmp CLe (EVar "a") (EVar "b")). split; [destruct V; subst v; vm_compute; reflexivity|].
    intros I rho a b A B. cbn [eval]. rewrite A, B. eexists. split; [reflexivity|]. cbn [cmp_sem]. unfold Rleb. destruct (Rle_dec a b); split; congruence || auto; discriminate.
  - exists (ECmp CLt (EVar "a") (EVar "b")). split; [destruct V; subst v; vm_compute; reflexivity|].
    intros I rho a b A B. cbn [eval]. rewrite A, B. eexists. split; [reflexivity|]. cbn [cmp_sem]. unfold Rltb. destruct (Rlt_dec a b); split; congruence || auto; discriminate.
  - exists (ECmp CEq (EVar "a") (EVar "b")). split; [destruct V; subst v; vm_compute; reflexivity|].
    intros I rho a b A B. cbn [eval]. rewrite A, B. eexists. split; [reflexivity|]. cbn [cmp_sem]. unfold Reqb. destruct (Req_EM_T a b); split; congruence || auto; discriminate.
Qed.
(** The same after the translation of the line (gen_repo/impl/gen_py.py:20-50). *)
Definition translated1 (f : bstr) (r : R -> R -> Prop) : Prop :=
  exists e, parse_line jax_voc (post_process ("y = " +++ f +++ "(x)"))%b = Some ("y"%b, e) /\
  forall I rho x, rho "x"%b = Some (VR x) -> forall w, eval I rho e = Some w <-> exists y, w = VR y /\ r x y.
Lemma translated_ok f f' r : post_process ("y = " +++ f +++ "(x)")%b = ("y = " +++ f' +++ "(x)")%b -> line1 jax_voc f' r -> translated1 f r.
Proof. intros E (e & P & H). exists e. rewrite E. split; assumption. Qed.
Lemma translated_functions_ok : Forall (fun p => translated1 (fst p) (snd p)) maple_functions.
Proof.
  pose proof jax_functions_ok as J. rewrite Forall_forall in J.
  assert (A : forall f f' r, In (f', r) jax_functions -> post_process ("y = " +++ f +++ "(x)")%b = ("y = " +++ f' +++ "(x)")%b -> translated1 f r).
  { intros f f' r M E. exact (translated_ok f f' r E (J _ M)). }
  unfold maple_functions. repeat apply Forall_cons; try apply Forall_nil; cbn [fst snd].
  - apply (A _ "jnp.sqrt"%b); [cbn; tauto|vm_compute; reflexivity].
  - apply (A _ "jnp.exp"%b); [cbn; tauto|vm_compute; reflexivity].
  - apply (A _ "jnp.log"%b); [cbn; tauto|vm_compute; reflexivity].
  - apply (A _ "jnp.arctan"%b); [cbn; tauto|vm_compute; reflexivity].
  - apply (A _ "jnp.arcsinh"%b); [cbn; tauto|vm_compute; reflexivity].
  - apply (A _ "jnp.arctanh"%b); [cbn; tauto|vm_compute; reflexivity].
  - apply (A _ "jnp.tanh"%b); [cbn; tauto|vm_compute; reflexivity].
  - apply (A _ "jnp.cosh"%b); [cbn; tauto|vm_compute; reflexivity].
  - apply (A _ "jnp.sin"%b); [cbn; tauto|vm_compute; reflexivity].
  - apply (A _ "jnp.cos"%b); [cbn; tauto|vm_compute; reflexivity].
  - apply (A _ "jnp.abs"%b); [cbn; tauto|vm_compute; reflexivity].
  - apply (A _ "Heaviside"%b); [cbn; tauto|vm_compute; reflexivity].
Qed.
(** A conditional has the value of the branch taken, whatever the other one is. *)
Definition selects (v : vocabulary) : Prop :=
  exists e, parse_line v "y = lax_cond(a <= b, c, d)"%b = Some ("y"%b, e) /\
  forall I rho a b, rho "a"%b = Some (VR a) -> rho "b"%b = Some (VR b) -> forall y,
  (a <= b -> eval I rho e = Some (VR y) <-> rho "c"%b = Some (VR y)) /\ (b < a -> eval I rho e = Some (VR y) <-> rho "d"%b = Some (VR y)).
Lemma selects_ok v : v = raw_voc \/ v = jax_voc -> selects v.
Proof.
  intros V. exists (ECond (ECmp CLe (EVar "a") (EVar "b")) (EVar "c") (EVar "d")). split; [destruct V; subst v; vm_compute; reflexivity|].
  intros I rho a b A B y. cbn [eval]. rewrite A, B. cbn [cmp_sem]. unfold Rleb.
  assert (L : forall o, lift1 Some o = Some (VR y) <-> o = Some (VR y)) by (intros [[r|t]|]; cbn [lift1]; split; congruence).
  split; intros H; (destruct (Rle_dec a b); [|]); try (exfalso; lra); apply L.
Qed.
Definition signs (v : vocabulary) : Prop :=
  exists e, parse_line v "y = -a"%b = Some ("y"%b, e) /\ forall I rho a, rho "a"%b = Some (VR a) -> eval I rho e = Some (VR (- a)).
Lemma signs_ok v : v = raw_voc \/ v = jax_voc -> signs v.
Proof.
  intros V. exists (ENeg (EVar "a")). split; [destruct V; subst v; vm_compute; reflexivity|]. intros I rho a A. cbn [eval]. rewrite A. reflexivity.
Qed.
(** Powers of the kinds that occur in formulas. *)
Lemma whole_power x n z : is_power x (INR n) z <-> z = x ^ n.
Proof.
  assert (E : is_power x (INR n) (x ^ n)).
  { destruct (Rtotal_order x 0) as [L|[->|G]].
    - do 3 right. split; [exact L|]. exists (Z.of_nat n). split; [apply INR_IZR_INZ|apply pow_powerRZ].
    - destruct n as [|n]; [right; right; left; repeat split; reflexivity|]. right. left. split; [reflexivity|]. split; [apply lt_0_INR; lia|apply pow_ne_zero; lia].
    - left. split; [exact G|]. rewrite <- (Rpower_pow n x G). reflexivity. }
  split; [|intros ->; exact E]. intros H. apply real_power in H, E. congruence.
Qed.
Lemma root_power x n z : 0 <= x -> is_power x (/ INR (S n)) z <-> 0 <= z /\ z ^ S n = x.
Proof.
  intros X. assert (N : 0 < INR (S n)) by (apply lt_0_INR; lia). assert (P : 0 < / INR (S n)) by (apply Rinv_0_lt_compat, N). split.
  - intros [[G ->]|[[-> [_ ->]]|[[_ [F _]]|[F _]]]]; [| |lra|lra].
    + split; [apply Rlt_le, exp_pos|]. rewrite <- (Rpower_pow (S n) _ (exp_pos _)). unfold Rpower. rewrite ln_exp.
      replace (INR (S n) * (/ INR (S n) * ln x)) with (ln x) by (field; lra). apply exp_ln, G.
    + split; [lra|apply pow_ne_zero; lia].
  - intros [Z <-]. destruct (Req_EM_T z 0) as [->|D]; [right; left; split; [apply pow_ne_zero; lia|split; [exact P|reflexivity]]|].
    left. assert (G : 0 < z) by lra. split; [apply pow_lt, G|]. rewrite <- (Rpower_pow (S n) z G). unfold Rpower. rewrite ln_exp.
    replace (/ INR (S n) * (INR (S n) * ln z)) with (ln z) by (field; lra). symmetry. apply exp_ln, G.
Qed.
