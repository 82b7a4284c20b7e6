(** Differentiability of generated programs (C39): along every differentiable path of inputs the
    value of a program is differentiable wherever it exists, unless a comparison on the executed
    path is tied or a root, an absolute value or a real power is taken at 0. *)
From Coq Require Import Reals List QArith Qreals Bool Lra Lia.
From Verif Require Import Bytes Syntax Parser PostProcess Src Semantics IntervalThm2.
Import ListNotations.
Open Scope R_scope.

Definition near (P : R -> Prop) : Prop := exists d, 0 < d /\ forall t, Rabs t < d -> P t.
(** [F] has a value near 0 and is differentiable at 0. *)
Definition smooth (F : R -> option R) : Prop :=
  exists g l, derivable_pt_lim g 0 l /\ near (fun t => F t = Some (g t)).
(** The same of a value of a program; a truth value has to be constant near 0. *)
Definition vsmooth (F : R -> option val) : Prop :=
  (exists g l, derivable_pt_lim g 0 l /\ near (fun t => F t = Some (VR (g t)))) \/
  (exists b, near (fun t => F t = Some (VB b))).
(** The special functions are differentiable where they are defined; atan2 (y, x) where y > 0. *)
Definition ops_smooth (I : interp) : Prop :=
  (forall n g l, derivable_pt_lim g 0 l -> op1 I n (g 0) <> None -> smooth (fun t => op1 I n (g t))) /\
  (forall n g l h k, derivable_pt_lim g 0 l -> derivable_pt_lim h 0 k -> 0 < g 0 -> op2 I n (g 0) (h 0) <> None ->
     smooth (fun t => op2 I n (g t) (h t))) /\
  (forall n g l h k i m, derivable_pt_lim g 0 l -> derivable_pt_lim h 0 k -> derivable_pt_lim i 0 m -> op3 I n (g 0) (h 0) (i 0) <> None ->
     smooth (fun t => op3 I n (g t) (h t) (i t))).

(** ** Kinks *)
Definition kinked (f : fn1) : bool := match f with FSqrt | FCbrt | FAbs | FHeaviside => true | _ => false end.
(** An integer written out as the exponent. *)
Definition literal (e : expr) : option Z :=
  match e with ENum q => if Qeq_bool q (inject_Z (Qnum q / Zpos (Qden q))) then Some (Qnum q / Zpos (Qden q))%Z else None | _ => None end.
Section Calm.
Variables (I : interp) (rho : env) (ok : bstr -> Prop).
Fixpoint calm (e : expr) : Prop :=
  match e with
  | ENum _ | EPi => True
  | EVar x => ok x
  | ENeg a => calm a
  | EAdd a b | ESub a b | EMul a b | EDiv a b | EOr a b | EAnd a b => calm a /\ calm b
  | EFn2 _ a b => calm a /\ calm b /\ forall x, eval I rho a = Some (VR x) -> 0 < x
  | EPow a b => calm a /\ calm b /\ forall x, eval I rho a = Some (VR x) ->
      0 < x \/ exists k, literal b = Some k /\ (x <> 0 \/ (0 <= k)%Z)
  | ECmp _ a b => calm a /\ calm b /\ forall x y, eval I rho a = Some (VR x) -> eval I rho b = Some (VR y) -> x <> y
  | ECond c a b => calm c /\ (eval I rho c = Some (VB true) -> calm a) /\ (eval I rho c = Some (VB false) -> calm b)
  | EFn1 f a => calm a /\ (kinked f = true -> eval I rho a <> Some (VR 0))
  | EFn3 _ a b c => calm a /\ calm b /\ calm c
  end.
End Calm.
(** A variable is calm if it has a value computed without kinks. *)
Fixpoint calm_run (I : interp) (rho : env) (ok : bstr -> Prop) (p : program) : bstr -> Prop :=
  match p with
  | [] => ok
  | (x, e) :: p =>
      calm_run I (upd rho x (eval I rho e)) (fun y => if beqb y x then calm I rho ok e /\ eval I rho e <> None else ok y) p
  end.
Definition off_kinks (I : interp) (rho : env) (p : program) : Prop := calm_run I rho (fun x => rho x <> None) p "res"%b.

(** ** Near 0 *)
Lemma near_all (P : R -> Prop) : (forall t, P t) -> near P.
Proof. intros H. exists 1. split; [lra|auto]. Qed.
Lemma near_mono (P Q : R -> Prop) : (forall t, P t -> Q t) -> near P -> near Q.
Proof. intros H (d & D & HP). exists d. auto. Qed.
Lemma near_and (P Q : R -> Prop) : near P -> near Q -> near (fun t => P t /\ Q t).
Proof.
  intros (d & D & HP) (e & E & HQ). exists (Rmin d e). split; [apply Rmin_glb_lt; assumption|].
  intros t Ht. pose proof (Rmin_l d e). pose proof (Rmin_r d e). split; [apply HP|apply HQ]; lra.
Qed.
Lemma near_0 (P : R -> Prop) : near P -> P 0.
Proof. intros (d & D & H). apply H. rewrite Rabs_R0. exact D. Qed.
Lemma near_close g l e : derivable_pt_lim g 0 l -> 0 < e -> near (fun t => Rabs (g t - g 0) < e).
Proof.
  intros H He. destruct (H 1 Rlt_0_1) as (d & Hd). pose proof (Rabs_pos l) as Pl.
  assert (Pe : 0 < e / (Rabs l + 1)) by (apply Rdiv_lt_0_compat; lra).
  exists (Rmin d (e / (Rabs l + 1))). split; [apply Rmin_glb_lt; [apply cond_pos|exact Pe]|].
  intros t Ht. pose proof (Rmin_l d (e / (Rabs l + 1))). pose proof (Rmin_r d (e / (Rabs l + 1))).
  destruct (Req_EM_T t 0) as [->|N]; [rewrite Rminus_diag_eq, Rabs_R0 by reflexivity; exact He|].
  assert (Ht' : Rabs t < d) by lra. specialize (Hd t N Ht'). rewrite Rplus_0_l in Hd.
  replace (g t - g 0) with (((g t - g 0) / t - l) * t + l * t) by (field; exact N).
  eapply Rle_lt_trans; [apply Rabs_triang|]. rewrite !Rabs_mult. pose proof (Rabs_pos t).
  assert (Rabs ((g t - g 0) / t - l) * Rabs t <= 1 * Rabs t) by (apply Rmult_le_compat_r; lra).
  assert (Rabs t * (Rabs l + 1) < e) by (apply (Rmult_lt_reg_r (/ (Rabs l + 1))); [apply Rinv_0_lt_compat; lra|]; rewrite Rmult_assoc, Rinv_r by lra; unfold Rdiv in *; lra).
  lra.
Qed.
Lemma near_pos g l : derivable_pt_lim g 0 l -> 0 < g 0 -> near (fun t => 0 < g t).
Proof. intros H P. eapply near_mono; [|exact (near_close g l (g 0) H P)]. intros t Ht. cbv beta in Ht. apply Rabs_def2 in Ht. lra. Qed.
Lemma near_neg g l : derivable_pt_lim g 0 l -> g 0 < 0 -> near (fun t => g t < 0).
Proof. intros H P. assert (P' : 0 < - g 0) by lra. eapply near_mono; [|exact (near_close g l (- g 0) H P')]. intros t Ht. cbv beta in Ht. apply Rabs_def2 in Ht. lra. Qed.
Lemma near_nonzero g l : derivable_pt_lim g 0 l -> g 0 <> 0 -> near (fun t => g t <> 0).
Proof.
  intros H N. destruct (Rtotal_order (g 0) 0) as [L|[E|G]]; [|contradiction|].
  - eapply near_mono; [|exact (near_neg g l H L)]. intros t Ht. cbv beta in Ht. lra.
  - eapply near_mono; [|exact (near_pos g l H G)]. intros t Ht. cbv beta in Ht. lra.
Qed.

(** ** Differentiable functions of a differentiable function *)
Lemma smooth_of (F : R -> option R) g l : derivable_pt_lim g 0 l -> near (fun t => F t = Some (g t)) -> smooth F.
Proof. intros. exists g, l. auto. Qed.
Lemma smooth_comp (f : R -> R) m g l : derivable_pt_lim g 0 l -> derivable_pt_lim f (g 0) m -> smooth (fun t => Some (f (g t))).
Proof. intros Hg Hf. exists (fun t => f (g t)), (m * l). split; [exact (derivable_pt_lim_comp g f 0 l m Hg Hf)|apply near_all; reflexivity]. Qed.
Lemma smooth_near (F G : R -> option R) : near (fun t => F t = G t) -> smooth G -> smooth F.
Proof. intros N (g & l & H & M). exists g, l. split; [exact H|]. eapply near_mono; [|exact (near_and _ _ N M)]. intros t [A B]. congruence. Qed.

Lemma deriv_ext f g x l : (forall t, f t = g t) -> derivable_pt_lim f x l -> derivable_pt_lim g x l.
Proof. intros E H e He. destruct (H e He) as (d & Hd). exists d. intros h Hh Hb. rewrite <- !E. exact (Hd h Hh Hb). Qed.
Lemma deriv_tanh x : exists m, derivable_pt_lim tanh x m.
Proof.
  eexists. apply (deriv_ext (fun t => sinh t / cosh t)); [reflexivity|]. apply derivable_pt_lim_div; [apply derivable_pt_lim_sinh|apply derivable_pt_lim_cosh|].
  unfold cosh. pose proof (exp_pos x). pose proof (exp_pos (- x)). lra.
Qed.
Lemma deriv_affine a b x : derivable_pt_lim (fun t => a + b * t) x b.
Proof.
  pose proof (derivable_pt_lim_plus (fct_cte a) (mult_real_fct b id) x 0 (b * 1) (derivable_pt_lim_const a x)
    (derivable_pt_lim_scal id b x 1 (derivable_pt_lim_id x))) as H.
  replace (0 + b * 1) with b in H by ring. exact H.
Qed.
Lemma deriv_quot (f g : R -> R) x l m : derivable_pt_lim f x l -> derivable_pt_lim g x m -> g x <> 0 -> exists k, derivable_pt_lim (fun t => f t / g t) x k.
Proof. intros Hf Hg N. eexists. exact (derivable_pt_lim_div f g x l m Hf Hg N). Qed.
Lemma deriv_atanh x : Rabs x < 1 -> exists m, derivable_pt_lim Ratanh x m.
Proof.
  intros H. apply Rabs_def2 in H. unfold Ratanh.
  destruct (deriv_quot (fun t => 1 + 1 * t) (fun t => 1 + (-1) * t) x 1 (-1) (deriv_affine 1 1 x) (deriv_affine 1 (-1) x) ltac:(lra)) as (k & Hk).
  assert (P : 0 < (1 + 1 * x) / (1 + -1 * x)) by (apply Rdiv_lt_0_compat; lra).
  pose proof (derivable_pt_lim_comp _ ln x k _ Hk (derivable_pt_lim_ln _ P)) as H1.
  pose proof (derivable_pt_lim_scal _ (/ 2) _ _ H1) as H2. eexists. eapply deriv_ext; [|exact H2].
  intros t. unfold mult_real_fct, comp. rewrite Rmult_comm. unfold Rdiv. f_equal. f_equal. f_equal; [ring|f_equal; ring].
Qed.
Lemma deriv_power g l h k : derivable_pt_lim g 0 l -> derivable_pt_lim h 0 k -> 0 < g 0 -> exists m, derivable_pt_lim (fun t => Rpower (g t) (h t)) 0 m.
Proof.
  intros Hg Hh P. pose proof (derivable_pt_lim_comp _ ln 0 l _ Hg (derivable_pt_lim_ln _ P)) as H1.
  pose proof (derivable_pt_lim_mult h _ 0 k _ Hh H1) as H2. pose proof (derivable_pt_lim_comp _ exp 0 _ _ H2 (derivable_pt_lim_exp _)) as H3.
  eexists. exact H3.
Qed.
Lemma deriv_opp g l : derivable_pt_lim g 0 l -> derivable_pt_lim (fun t => - g t) 0 (- l).
Proof. exact (derivable_pt_lim_opp g 0 l). Qed.
Lemma deriv_pow_n g l n : derivable_pt_lim g 0 l -> exists m, derivable_pt_lim (fun t => g t ^ n) 0 m.
Proof. intros H. eexists. exact (derivable_pt_lim_comp g (fun y => y ^ n) 0 l _ H (derivable_pt_lim_pow (g 0) n)). Qed.
Lemma deriv_powerRZ g l k : derivable_pt_lim g 0 l -> g 0 <> 0 \/ (0 <= k)%Z -> exists m, derivable_pt_lim (fun t => powerRZ (g t) k) 0 m.
Proof.
  intros H N. destruct k as [|q|q]; cbn [powerRZ].
  - exists 0. apply derivable_pt_lim_const.
  - exact (deriv_pow_n g l _ H).
  - destruct N as [N|N]; [|lia]. destruct (deriv_pow_n g l (Pos.to_nat q) H) as (m & Hm).
    destruct (deriv_quot (fun _ => 1) _ 0 0 m (derivable_pt_lim_const 1 0) Hm (pow_nonzero _ _ N)) as (j & Hj).
    exists j. eapply deriv_ext; [|exact Hj]. intros t. unfold Rdiv. cbv beta. lra.
Qed.

(** ** The functions of the language *)
Lemma smooth_cbrt g l : derivable_pt_lim g 0 l -> g 0 <> 0 -> smooth (fun t => Some (Rcbrt (g t))).
Proof.
  intros H N. destruct (Rtotal_order (g 0) 0) as [L|[E|G]]; [|contradiction|].
  - destruct (deriv_power _ _ _ _ (deriv_opp _ _ H) (derivable_pt_lim_const (1 / 3) 0) ltac:(lra)) as (m & Hm).
    apply (smooth_of _ _ _ (deriv_opp _ _ Hm)). eapply near_mono; [|exact (near_neg g l H L)]. intros t Ht. cbv beta in Ht.
    unfold Rcbrt. destruct (Rlt_dec 0 (g t)); [lra|]. destruct (Req_EM_T (g t) 0); [lra|]. reflexivity.
  - destruct (deriv_power _ _ _ _ H (derivable_pt_lim_const (1 / 3) 0) G) as (m & Hm).
    apply (smooth_of _ _ _ Hm). eapply near_mono; [|exact (near_pos g l H G)]. intros t Ht. cbv beta in Ht.
    unfold Rcbrt. destruct (Rlt_dec 0 (g t)); [reflexivity|lra].
Qed.
Lemma smooth_abs g l : derivable_pt_lim g 0 l -> g 0 <> 0 -> smooth (fun t => Some (Rabs (g t))).
Proof.
  intros H N. destruct (Rtotal_order (g 0) 0) as [L|[E|G]]; [|contradiction|].
  - apply (smooth_of _ _ _ (deriv_opp _ _ H)). eapply near_mono; [|exact (near_neg g l H L)]. intros t Ht. cbv beta in Ht. rewrite Rabs_left by exact Ht. reflexivity.
  - apply (smooth_of _ _ _ H). eapply near_mono; [|exact (near_pos g l H G)]. intros t Ht. cbv beta in Ht. rewrite Rabs_right by lra. reflexivity.
Qed.
Lemma smooth_fn1 I f g l : ops_smooth I -> derivable_pt_lim g 0 l -> (kinked f = true -> g 0 <> 0) -> fn1_sem I f (g 0) <> None ->
  smooth (fun t => fn1_sem I f (g t)).
Proof.
  intros HI H K D. destruct f; cbn [fn1_sem kinked] in *.
  - specialize (K eq_refl). destruct (Rle_dec 0 (g 0)) as [L|]; [|contradiction]. assert (P : 0 < g 0) by lra.
    pose proof (derivable_pt_lim_comp g sqrt 0 l _ H (derivable_pt_lim_sqrt _ P)) as C. apply (smooth_of _ _ _ C).
    eapply near_mono; [|exact (near_pos g l H P)]. intros t Ht. cbv beta in Ht. destruct (Rle_dec 0 (g t)); [reflexivity|lra].
  - exact (smooth_cbrt g l H (K eq_refl)).
  - exact (smooth_comp exp _ g l H (derivable_pt_lim_exp _)).
  - destruct (Rlt_dec 0 (g 0)) as [P|]; [|contradiction].
    pose proof (derivable_pt_lim_comp g ln 0 l _ H (derivable_pt_lim_ln _ P)) as C. apply (smooth_of _ _ _ C).
    eapply near_mono; [|exact (near_pos g l H P)]. intros t Ht. cbv beta in Ht. destruct (Rlt_dec 0 (g t)); [reflexivity|lra].
  - exact (smooth_comp atan _ g l H (derivable_pt_lim_atan _)).
  - exact (smooth_comp arcsinh _ g l H (derivable_pt_lim_arcsinh _)).
  - destruct (Rlt_dec (Rabs (g 0)) 1) as [P|]; [|contradiction]. destruct (deriv_atanh _ P) as (m & Hm).
    pose proof (derivable_pt_lim_comp g Ratanh 0 l _ H Hm) as C. apply (smooth_of _ _ _ C).
    assert (E : 0 < 1 - Rabs (g 0)) by lra. eapply near_mono; [|exact (near_close g l _ H E)]. intros t Ht. cbv beta in Ht.
    destruct (Rlt_dec (Rabs (g t)) 1) as [|N]; [reflexivity|]. exfalso. apply N. pose proof (Rabs_triang_inv (g t) (g 0)). lra.
  - destruct (deriv_tanh (g 0)) as (m & Hm). exact (smooth_comp tanh m g l H Hm).
  - exact (smooth_comp cosh _ g l H (derivable_pt_lim_cosh _)).
  - exact (smooth_comp sin _ g l H (derivable_pt_lim_sin _)).
  - exact (smooth_comp cos _ g l H (derivable_pt_lim_cos _)).
  - exact (smooth_abs g l H (K eq_refl)).
  - specialize (K eq_refl). destruct (Rtotal_order (g 0) 0) as [L|[E|G]]; [|contradiction|].
    + apply (smooth_of _ (fct_cte 0) 0 (derivable_pt_lim_const 0 0)). eapply near_mono; [|exact (near_neg g l H L)]. intros t Ht. cbv beta in Ht.
      destruct (Rle_dec 0 (g t)); [lra|reflexivity].
    + apply (smooth_of _ (fct_cte 1) 0 (derivable_pt_lim_const 1 0)). eapply near_mono; [|exact (near_pos g l H G)]. intros t Ht. cbv beta in Ht.
      destruct (Rle_dec 0 (g t)); [reflexivity|lra].
  - exact (proj1 HI _ g l H D).
Qed.
Lemma smooth_pow g l h k : derivable_pt_lim g 0 l -> derivable_pt_lim h 0 k ->
  0 < g 0 \/ (exists z, (forall t, h t = IZR z) /\ (g 0 <> 0 \/ (0 <= z)%Z)) -> smooth (fun t => pypow (g t) (h t)).
Proof.
  intros Hg Hh [P|(z & Hz & N)].
  - destruct (deriv_power g l h k Hg Hh P) as (m & Hm). apply (smooth_of _ _ _ Hm).
    eapply near_mono; [|exact (near_pos g l Hg P)]. intros t Ht. apply pypow_pos, Ht.
  - destruct (deriv_powerRZ g l z Hg N) as (m & Hm). apply (smooth_of _ _ _ Hm).
    assert (M : near (fun t => g t <> 0 \/ (0 <= z)%Z)).
    { destruct N as [N|N]; [eapply near_mono; [|exact (near_nonzero g l Hg N)]; auto|apply near_all; auto]. }
    eapply near_mono; [|exact M]. intros t Ht. rewrite Hz. apply pypow_Z, Ht.
Qed.
Lemma smooth_cmp o g l h k : derivable_pt_lim g 0 l -> derivable_pt_lim h 0 k -> g 0 <> h 0 ->
  near (fun t => cmp_sem o (g t) (h t) = cmp_sem o (g 0) (h 0)).
Proof.
  intros Hg Hh N. pose proof (derivable_pt_lim_minus g h 0 l k Hg Hh) as D.
  assert (C : near (fun t => (g t < h t /\ g 0 < h 0) \/ (h t < g t /\ h 0 < g 0))).
  { destruct (Rtotal_order (g 0) (h 0)) as [L|[E|G]]; [|contradiction|].
    - eapply near_mono; [|refine (near_neg _ _ D _); unfold minus_fct; lra]. unfold minus_fct. intros t Ht. cbv beta in Ht. left. lra.
    - eapply near_mono; [|refine (near_pos _ _ D _); unfold minus_fct; lra]. unfold minus_fct. intros t Ht. cbv beta in Ht. right. lra. }
  eapply near_mono; [|exact C]. intros t [[A B]|[A B]]; destruct o; cbn [cmp_sem]; unfold Rleb, Rltb, Reqb;
    repeat destruct (Rle_dec _ _); repeat destruct (Rlt_dec _ _); repeat destruct (Req_EM_T _ _); try reflexivity; lra.
Qed.

(** ** Expressions and programs *)
Lemma vs_real F g l : derivable_pt_lim g 0 l -> near (fun t => F t = Some (VR (g t))) -> vsmooth F.
Proof. intros. left. exists g, l. auto. Qed.
Lemma vs_lift1 (f : R -> option R) (F : R -> option val) g l : derivable_pt_lim g 0 l -> near (fun t => F t = Some (VR (g t))) ->
  smooth (fun t => f (g t)) -> vsmooth (fun t => lift1 f (F t)).
Proof.
  intros H N (h & k & Hh & M). apply (vs_real _ h k Hh). eapply near_mono; [|exact (near_and _ _ N M)].
  intros t [A B]. rewrite A. cbn [lift1]. rewrite B. reflexivity.
Qed.
Lemma vs_lift2 (f : R -> R -> option R) (F G : R -> option val) g h : near (fun t => F t = Some (VR (g t))) -> near (fun t => G t = Some (VR (h t))) ->
  smooth (fun t => f (g t) (h t)) -> vsmooth (fun t => lift2 f (F t) (G t)).
Proof.
  intros N N' (i & k & Hi & M). apply (vs_real _ i k Hi). eapply near_mono; [|exact (near_and _ _ (near_and _ _ N N') M)].
  intros t [[A B] C]. rewrite A, B. cbn [lift2]. rewrite C. reflexivity.
Qed.
Lemma lift1_some f v : lift1 f v <> None -> exists x, v = Some (VR x) /\ f x <> None.
Proof. destruct v as [[x|]|]; cbn; try congruence. intros H. exists x. split; [reflexivity|]. destruct (f x); congruence. Qed.
Lemma lift2_some f v w : lift2 f v w <> None -> exists x y, v = Some (VR x) /\ w = Some (VR y) /\ f x y <> None.
Proof.
  destruct v as [[x|]|]; cbn; try congruence. destruct w as [[y|]|]; try congruence. intros H. exists x, y. split; [reflexivity|]. split; [reflexivity|]. destruct (f x y); congruence.
Qed.
Lemma vs_is_real F x : vsmooth F -> F 0 = Some (VR x) -> exists g l, derivable_pt_lim g 0 l /\ near (fun t => F t = Some (VR (g t))) /\ g 0 = x.
Proof.
  intros [(g & l & H & N)|(b & N)] E; pose proof (near_0 _ N) as Z; cbv beta in Z; rewrite E in Z; [|discriminate].
  injection Z as Z. exists g, l. auto.
Qed.
Lemma vs_is_bool F b : vsmooth F -> F 0 = Some (VB b) -> near (fun t => F t = Some (VB b)).
Proof.
  intros [(g & l & H & N)|(c & N)] E; pose proof (near_0 _ N) as Z; cbv beta in Z; rewrite E in Z; [discriminate|].
  injection Z as ->. exact N.
Qed.
Lemma vs_near F G : near (fun t => F t = G t) -> vsmooth G -> vsmooth F.
Proof.
  intros N [(g & l & H & M)|(b & M)].
  - left. exists g, l. split; [exact H|]. eapply near_mono; [|exact (near_and _ _ N M)]. intros t [A B]. congruence.
  - right. exists b. eapply near_mono; [|exact (near_and _ _ N M)]. intros t [A B]. congruence.
Qed.
Lemma literal_ok e k : literal e = Some k -> exists q, e = ENum q /\ Q2R q = IZR k.
Proof.
  destruct e; cbn [literal]; try discriminate. destruct (Qeq_bool q (inject_Z (Qnum q / Zpos (Qden q)))) eqn:E; [|discriminate].
  intros H. injection H as <-. exists q. split; [reflexivity|]. apply Qeq_bool_eq in E. rewrite (Qeq_eqR _ _ E). unfold Q2R, inject_Z. cbn [Qnum Qden]. rewrite Rinv_1. ring.
Qed.

Section Main.
Variable I : interp.
Hypothesis HI : ops_smooth I.
Section Env.
Variables (rho : R -> env) (ok : bstr -> Prop).
Hypothesis Hr : forall x, ok x -> vsmooth (fun t => rho t x).
Lemma arith (f : R -> R -> R) a b :
  (forall g l h k, derivable_pt_lim g 0 l -> derivable_pt_lim h 0 k -> exists m, derivable_pt_lim (fun t => f (g t) (h t)) 0 m) ->
  (eval I (rho 0) a <> None -> vsmooth (fun t => eval I (rho t) a)) -> (eval I (rho 0) b <> None -> vsmooth (fun t => eval I (rho t) b)) ->
  lift2 (fun x y => Some (f x y)) (eval I (rho 0) a) (eval I (rho 0) b) <> None ->
  vsmooth (fun t => lift2 (fun x y => Some (f x y)) (eval I (rho t) a) (eval I (rho t) b)).
Proof.
  intros F A B D. destruct (lift2_some _ _ _ D) as (x & y & Ex & Ey & _).
  destruct (vs_is_real _ x (A ltac:(congruence)) Ex) as (g & l & Hg & Ng & _). destruct (vs_is_real _ y (B ltac:(congruence)) Ey) as (h & k & Hh & Nh & _).
  destruct (F g l h k Hg Hh) as (m & Hm). apply (vs_lift2 _ _ _ g h Ng Nh). apply (smooth_of _ _ _ Hm). apply near_all. reflexivity.
Qed.
Lemma logic (f : bool -> bool -> bool) a b :
  (eval I (rho 0) a <> None -> vsmooth (fun t => eval I (rho t) a)) -> (eval I (rho 0) b <> None -> vsmooth (fun t => eval I (rho t) b)) ->
  match eval I (rho 0) a, eval I (rho 0) b with Some (VB x), Some (VB y) => Some (VB (f x y)) | _, _ => None end <> None ->
  vsmooth (fun t => match eval I (rho t) a, eval I (rho t) b with Some (VB x), Some (VB y) => Some (VB (f x y)) | _, _ => None end).
Proof.
  intros A B D. destruct (eval I (rho 0) a) as [[|x]|] eqn:Ex; try congruence. destruct (eval I (rho 0) b) as [[|y]|] eqn:Ey; try congruence.
  pose proof (vs_is_bool _ x (A ltac:(congruence)) Ex) as Na. pose proof (vs_is_bool _ y (B ltac:(congruence)) Ey) as Nb.
  right. exists (f x y). eapply near_mono; [|exact (near_and _ _ Na Nb)]. intros t [-> ->]. reflexivity.
Qed.
Theorem eval_smooth : forall e, calm I (rho 0) ok e -> eval I (rho 0) e <> None -> vsmooth (fun t => eval I (rho t) e).
Proof.
  induction e; cbn [calm eval]; intros C D.
  - apply (vs_real _ (fct_cte (Q2R q)) 0); [apply derivable_pt_lim_const|apply near_all; reflexivity].
  - apply (vs_real _ (fct_cte PI) 0); [apply derivable_pt_lim_const|apply near_all; reflexivity].
  - exact (Hr _ C).
  - destruct (lift1_some _ _ D) as (x & Ex & _). destruct (vs_is_real _ x (IHe C ltac:(congruence)) Ex) as (g & l & Hg & Ng & _).
    apply (vs_lift1 _ _ g l Hg Ng). apply (smooth_of _ _ _ (deriv_opp _ _ Hg)). apply near_all. reflexivity.
  - destruct C. apply arith; auto. intros g l h k Hg Hh. eexists. exact (derivable_pt_lim_plus g h 0 l k Hg Hh).
  - destruct C. apply arith; auto. intros g l h k Hg Hh. eexists. exact (derivable_pt_lim_minus g h 0 l k Hg Hh).
  - destruct C. apply arith; auto. intros g l h k Hg Hh. eexists. exact (derivable_pt_lim_mult g h 0 l k Hg Hh).
  - destruct C as [Ca Cb]. destruct (lift2_some _ _ _ D) as (x & y & Ex & Ey & Dy).
    destruct (vs_is_real _ x (IHe1 Ca ltac:(congruence)) Ex) as (g & l & Hg & Ng & _). destruct (vs_is_real _ y (IHe2 Cb ltac:(congruence)) Ey) as (h & k & Hh & Nh & E).
    apply (vs_lift2 _ _ _ g h Ng Nh). destruct (Req_EM_T y 0) as [|N]; [congruence|]. rewrite <- E in N.
    destruct (deriv_quot g h 0 l k Hg Hh N) as (m & Hm). apply (smooth_of _ _ _ Hm). eapply near_mono; [|exact (near_nonzero h k Hh N)].
    intros t Ht. cbv beta in Ht. destruct (Req_EM_T (h t) 0); [contradiction|reflexivity].
  - destruct C as (Ca & Cb & K). destruct (lift2_some _ _ _ D) as (x & y & Ex & Ey & _).
    destruct (vs_is_real _ x (IHe1 Ca ltac:(congruence)) Ex) as (g & l & Hg & Ng & E). specialize (K x Ex). rewrite <- E in K. destruct K as [P|(z & Z & N)].
    + destruct (vs_is_real _ y (IHe2 Cb ltac:(congruence)) Ey) as (h & k & Hh & Nh & _).
      apply (vs_lift2 _ _ _ g h Ng Nh). exact (smooth_pow g l h k Hg Hh (or_introl P)).
    + destruct (literal_ok _ _ Z) as (q & -> & Eq). apply (vs_lift2 _ _ _ g (fct_cte (IZR z)) Ng).
      * apply near_all. intros t. cbn [eval]. rewrite Eq. reflexivity.
      * apply (smooth_pow g l _ 0 Hg (derivable_pt_lim_const (IZR z) 0)). right. exists z. split; [reflexivity|exact N].
  - destruct C as (Ca & Cb & K). destruct (eval I (rho 0) e1) as [[x|]|] eqn:Ex; try congruence. destruct (eval I (rho 0) e2) as [[y|]|] eqn:Ey; try congruence.
    destruct (vs_is_real _ x (IHe1 Ca ltac:(congruence)) Ex) as (g & l & Hg & Ng & E1). destruct (vs_is_real _ y (IHe2 Cb ltac:(congruence)) Ey) as (h & k & Hh & Nh & E2).
    specialize (K x y eq_refl eq_refl). rewrite <- E1, <- E2 in K. right. exists (cmp_sem o (g 0) (h 0)).
    eapply near_mono; [|exact (near_and _ _ (near_and _ _ Ng Nh) (smooth_cmp o g l h k Hg Hh K))]. intros t [[-> ->] <-]. reflexivity.
  - destruct C. apply logic; auto.
  - destruct C. apply logic; auto.
  - destruct C as (Cc & Ca & Cb). destruct (eval I (rho 0) e1) as [[|b]|] eqn:Ec; try congruence.
    pose proof (vs_is_bool _ b (IHe1 Cc ltac:(congruence)) Ec) as Nc.
    destruct b; (destruct (lift1_some _ _ D) as (x & Ex & _)).
    + destruct (vs_is_real _ x (IHe2 (Ca eq_refl) ltac:(congruence)) Ex) as (g & l & Hg & Ng & _). apply (vs_real _ g l Hg).
      eapply near_mono; [|exact (near_and _ _ Nc Ng)]. intros t [-> ->]. reflexivity.
    + destruct (vs_is_real _ x (IHe3 (Cb eq_refl) ltac:(congruence)) Ex) as (g & l & Hg & Ng & _). apply (vs_real _ g l Hg).
      eapply near_mono; [|exact (near_and _ _ Nc Ng)]. intros t [-> ->]. reflexivity.
  - destruct C as [Ca K]. destruct (lift1_some _ _ D) as (x & Ex & Df). destruct (vs_is_real _ x (IHe Ca ltac:(congruence)) Ex) as (g & l & Hg & Ng & E).
    apply (vs_lift1 _ _ g l Hg Ng). apply (smooth_fn1 I f g l HI Hg); [|congruence]. intros Hk E0. apply (K Hk). congruence.
  - destruct C as (Ca & Cb & K). destruct (lift2_some _ _ _ D) as (x & y & Ex & Ey & Df).
    destruct (vs_is_real _ x (IHe1 Ca ltac:(congruence)) Ex) as (g & l & Hg & Ng & E1). destruct (vs_is_real _ y (IHe2 Cb ltac:(congruence)) Ey) as (h & k & Hh & Nh & E2).
    apply (vs_lift2 _ _ _ g h Ng Nh). specialize (K x Ex). rewrite <- E1 in K. apply (proj1 (proj2 HI) _ g l h k Hg Hh K). congruence.
  - destruct C as (Ca & Cb & Cc). destruct (eval I (rho 0) e1) as [[x|]|] eqn:Ex; try congruence. destruct (eval I (rho 0) e2) as [[y|]|] eqn:Ey; try congruence.
    destruct (eval I (rho 0) e3) as [[z|]|] eqn:Ez; try congruence.
    destruct (vs_is_real _ x (IHe1 Ca ltac:(congruence)) Ex) as (g & l & Hg & Ng & E1). destruct (vs_is_real _ y (IHe2 Cb ltac:(congruence)) Ey) as (h & k & Hh & Nh & E2).
    destruct (vs_is_real _ z (IHe3 Cc ltac:(congruence)) Ez) as (i & m & Hi & Ni & E3).
    assert (Dz : op3 I f (g 0) (h 0) (i 0) <> None) by (rewrite E1, E2, E3; intros E; rewrite E in D; congruence).
    destruct (proj2 (proj2 HI) f g l h k i m Hg Hh Hi Dz) as (j & n & Hj & Nj). apply (vs_real _ j n Hj).
    eapply near_mono; [|exact (near_and _ _ (near_and _ _ Ng Nh) (near_and _ _ Ni Nj))]. intros t [[-> ->] [-> ->]]. reflexivity.
Qed.
End Env.
Theorem exec_smooth p : forall (rho : R -> env) (ok : bstr -> Prop), (forall x, ok x -> vsmooth (fun t => rho t x)) ->
  forall x, calm_run I (rho 0) ok p x -> vsmooth (fun t => exec I (rho t) p x).
Proof.
  induction p as [|[y e] p IH]; intros rho ok Hr x H; cbn [exec calm_run] in *; [exact (Hr x H)|].
  refine (IH (fun t => upd (rho t) y (eval I (rho t) e)) _ _ x H). intros z Hz. cbv beta in Hz. unfold upd. destruct (beqb z y); [|exact (Hr z Hz)].
  destruct Hz as [C D]. exact (eval_smooth rho ok Hr e C D).
Qed.
Theorem result_smooth (rho : R -> env) p : (forall x, rho 0 x <> None -> vsmooth (fun t => rho t x)) ->
  off_kinks I (rho 0) p -> result I (rho 0) p <> None -> smooth (fun t => result I (rho t) p).
Proof.
  intros Hr H D. pose proof (exec_smooth p rho _ Hr "res"%b H) as [(g & l & Hg & N)|(b & N)].
  - exists g, l. split; [exact Hg|]. eapply near_mono; [|exact N]. intros t E. unfold result. rewrite E. reflexivity.
  - exfalso. apply D. unfold result. rewrite (near_0 _ N). reflexivity.
Qed.
End Main.
