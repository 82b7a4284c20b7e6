(** The generated program computes what the raw text denotes. *)
From Coq Require Import Strings.Byte List Bool NArith ZArith QArith Reals Qreals Lra.
From Verif Require Import Bytes Syntax Parser PostProcess Src Ast Semantics CubeRoots Translate.
Import ListNotations.

(** ** Names *)
Lemma path_local x y : local x = true -> path y = x -> y = x.
Proof.
  intros L E. unfold local in L. apply andb_prop in L. destruct L as (L & N2). apply andb_prop in L. destruct L as (L & N1).
  unfold path in E. destruct (bstrip "p_a_" y) as [f|].
  - assert (P : bstrip "p." x = Some (field_path f)) by (apply bstrip_app; symmetry; exact E). unfold bprefix in N1. rewrite P in N1. discriminate.
  - destruct (bstrip "params_a_" y) as [f|]; [|exact E].
    assert (P : bstrip "params." x = Some (field_path f)) by (apply bstrip_app; symmetry; exact E). unfold bprefix in N2. rewrite P in N2. discriminate.
Qed.
Lemma path_upd x y : local x = true -> beqb (path y) x = beqb y x.
Proof.
  intros L. destruct (beqb (path y) x) eqn:E.
  - apply beqb_eq in E. symmetry. apply beqb_eq. exact (path_local x y L E).
  - symmetry. apply beqb_neq. intros ->. apply beqb_neq in E. apply E. unfold local in L. apply andb_prop in L. destruct L as (L & _).
    apply andb_prop in L. destruct L as (L & _). apply beqb_eq in L. exact L.
Qed.

(** ** Raw text with real cube roots *)
(** [x ** (1/3)] read as the real cube root also for a negative [x]. *)
Fixpoint real_roots (e : expr) : expr :=
  match e with
  | ENum _ | EPi | EVar _ => e
  | ENeg a => ENeg (real_roots a)
  | EAdd a b => EAdd (real_roots a) (real_roots b)
  | ESub a b => ESub (real_roots a) (real_roots b)
  | EMul a b => EMul (real_roots a) (real_roots b)
  | EDiv a b => EDiv (real_roots a) (real_roots b)
  | EPow a b => if is_third b then EFn1 FCbrt (real_roots a) else EPow (real_roots a) (real_roots b)
  | ECmp o a b => ECmp o (real_roots a) (real_roots b)
  | EOr a b => EOr (real_roots a) (real_roots b)
  | EAnd a b => EAnd (real_roots a) (real_roots b)
  | ECond c a b => ECond (real_roots c) (real_roots a) (real_roots b)
  | EFn1 f a => EFn1 f (real_roots a)
  | EFn2 f a b => EFn2 f (real_roots a) (real_roots b)
  | EFn3 f a b c => EFn3 f (real_roots a) (real_roots b) (real_roots c)
  end.
Definition real_prog (p : program) : program := map (fun s => (fst s, real_roots (snd s))) p.

Lemma fn1_eqb_eq f g : fn1_eqb f g = true -> f = g.
Proof. destruct f, g; cbn; try discriminate; try reflexivity. intros H. apply beqb_eq in H. subst. reflexivity. Qed.
Lemma cmp_eqb_eq o o' : cmp_eqb o o' = true -> o = o'.
Proof. destruct o, o'; cbn; try discriminate; reflexivity. Qed.
Ltac ands := repeat match goal with H : (_ && _)%bool = true |- _ => apply andb_prop in H; destruct H end.
Lemma same_eval I rho rho' e : (forall x, rho x = rho' (path x)) -> forall e', same e e' = true -> eval I rho (real_roots e) = eval I rho' e'.
Proof.
  intros R. induction e; intros e' S; destruct e'; cbn [same] in S; try discriminate S; try (destruct q; discriminate S); ands; cbn [real_roots eval].
  all: try (match goal with |- context [is_third ?b] => match goal with H : negb (is_third b) = true |- _ => apply negb_true_iff in H; rewrite H end end; cbn [eval]).
  all: try (rewrite (IHe _ S); reflexivity).
  all: try (rewrite (IHe1 _ ltac:(eassumption)), (IHe2 _ ltac:(eassumption)); reflexivity).
  all: try (rewrite (IHe1 _ ltac:(eassumption)), (IHe2 _ ltac:(eassumption)), (IHe3 _ ltac:(eassumption)); reflexivity).
  - destruct q as [n d], q0 as [n' d']. ands. apply Z.eqb_eq in H. apply Pos.eqb_eq in H0. subst. reflexivity.
  - reflexivity.
  - apply beqb_eq in S. subst. apply R.
  - destruct f; try discriminate S. ands. rewrite H. cbn [eval]. rewrite (IHe1 _ H0). reflexivity.
  - apply cmp_eqb_eq in H. subst. rewrite (IHe1 _ H1), (IHe2 _ H0). reflexivity.
  - apply fn1_eqb_eq in H. subst. rewrite (IHe _ H0). reflexivity.
  - apply beqb_eq in H. subst. rewrite (IHe1 _ H1), (IHe2 _ H0). reflexivity.
  - apply beqb_eq in H. subst. rewrite (IHe1 _ H2), (IHe2 _ H1), (IHe3 _ H0). reflexivity.
Qed.
Lemma same_exec I p : forall rho rho' p', (forall x, rho x = rho' (path x)) -> same_prog p p' = true ->
  forall x, exec I rho (real_prog p) x = exec I rho' p' (path x).
Proof.
  induction p as [|(x, e) p IH]; intros rho rho' p' R S; destruct p' as [|(y, e') p']; cbn [same_prog] in S; try discriminate S; [exact R|].
  ands. apply beqb_eq in H. subst y. cbn [real_prog map exec fst snd]. apply IH; [|assumption].
  intros z. unfold upd. rewrite (path_upd x z) by assumption. rewrite (same_eval I rho rho' e R e') by assumption. rewrite R. reflexivity.
Qed.

(** ** Raw text as Python reads it *)
Definition le_val (a b : option val) : Prop := forall w, a = Some w -> b = Some w.
Lemma is_num_eq n e : is_num n e = true -> e = ENum (n # 1).
Proof. destruct e as [[m d]| | | | | | | | | | | | | | |]; cbn [is_num]; try discriminate. intros H. ands. apply Z.eqb_eq in H. apply Pos.eqb_eq in H0. subst. reflexivity. Qed.
Lemma is_third_eq e : is_third e = true -> e = EDiv (ENum (1 # 1)) (ENum (3 # 1)).
Proof. destruct e; cbn [is_third]; try discriminate. intros H. ands. apply is_num_eq in H. apply is_num_eq in H0. subst. reflexivity. Qed.
Lemma le_lift1 f a a' : le_val a a' -> le_val (lift1 f a) (lift1 f a').
Proof. intros L w. destruct a as [[x|]|]; cbn; try discriminate. rewrite (L _ eq_refl). auto. Qed.
Lemma le_lift2 f a a' b b' : le_val a a' -> le_val b b' -> le_val (lift2 f a b) (lift2 f a' b').
Proof. intros L M w. destruct a as [[x|]|]; cbn; try discriminate. destruct b as [[y|]|]; try discriminate. rewrite (L _ eq_refl), (M _ eq_refl). auto. Qed.
Lemma real_roots_le I rho rho' e : (forall x, le_val (rho x) (rho' x)) -> le_val (eval I rho e) (eval I rho' (real_roots e)).
Proof.
  intros R. induction e; cbn [eval real_roots].
  - intros w H; exact H.
  - intros w H; exact H.
  - apply R.
  - apply le_lift1, IHe.
  - apply le_lift2; assumption.
  - apply le_lift2; assumption.
  - apply le_lift2; assumption.
  - apply le_lift2; assumption.
  - destruct (is_third e2) eqn:T; [|cbn [eval]; apply le_lift2; assumption].
    apply is_third_eq in T. subst e2. cbn [eval]. intros w H. destruct (eval I rho e1) as [[x|]|]; try discriminate H. rewrite (IHe1 _ eq_refl).
    cbn [lift1 fn1_sem]. cbn [lift2] in H. destruct (Req_EM_T (Q2R (3 # 1)) 0) as [Z|_]; [unfold Q2R in Z; cbn in Z; lra|]. cbn [lift2] in H.
    replace (Q2R (1 # 1) / Q2R (3 # 1))%R with (1 / 3)%R in H by (unfold Q2R; cbn; lra). destruct (pypow x (1 / 3)) eqn:P; [|discriminate H]. rewrite (cbrt_is_pow _ _ P). exact H.
  - intros w H. destruct (eval I rho e1) as [[x|]|]; try discriminate H. destruct (eval I rho e2) as [[y|]|]; try discriminate H. rewrite (IHe1 _ eq_refl), (IHe2 _ eq_refl). exact H.
  - intros w H. destruct (eval I rho e1) as [[|x]|]; try discriminate H. destruct (eval I rho e2) as [[|y]|]; try discriminate H. rewrite (IHe1 _ eq_refl), (IHe2 _ eq_refl). exact H.
  - intros w H. destruct (eval I rho e1) as [[|x]|]; try discriminate H. destruct (eval I rho e2) as [[|y]|]; try discriminate H. rewrite (IHe1 _ eq_refl), (IHe2 _ eq_refl). exact H.
  - intros w H. destruct (eval I rho e1) as [[|[]]|]; try discriminate H; rewrite (IHe1 _ eq_refl); [exact (le_lift1 Some _ _ IHe2 w H)|exact (le_lift1 Some _ _ IHe3 w H)].
  - apply le_lift1, IHe.
  - apply le_lift2; assumption.
  - intros w H. destruct (eval I rho e1) as [[x|]|]; try discriminate H. destruct (eval I rho e2) as [[y|]|]; try discriminate H. destruct (eval I rho e3) as [[z|]|]; try discriminate H.
    rewrite (IHe1 _ eq_refl), (IHe2 _ eq_refl), (IHe3 _ eq_refl). exact H.
Qed.
Lemma real_prog_le I p : forall rho rho', (forall x, le_val (rho x) (rho' x)) -> forall x, le_val (exec I rho p x) (exec I rho' (real_prog p) x).
Proof.
  induction p as [|(x, e) p IH]; intros rho rho' R; [exact R|]. cbn [real_prog map exec fst snd]. apply IH. intros y. unfold upd.
  destruct (beqb y x); [apply real_roots_le, R|apply R].
Qed.

(** ** The two readings of a raw text, and the theorem *)
Definition raw_result (I : interp) (src : list bstr) (rho : env) : option R :=
  match parse raw_voc src with Some p => result I rho p | None => None end.
Definition raw_real_result (I : interp) (src : list bstr) (rho : env) : option R :=
  match parse raw_voc src with Some p => result I rho (real_prog p) | None => None end.
Lemma le_result I p q rho rho' : le_val (exec I rho p "res"%b) (exec I rho' q "res"%b) -> forall v, result I rho p = Some v -> result I rho' q = Some v.
Proof. unfold result. intros L v H. destruct (exec I rho p "res"%b) as [[r|]|]; try discriminate H. rewrite (L _ eq_refl). exact H. Qed.
Theorem translated_ok src p' I rho rho' : generated src = Some p' -> translated src p' = true -> (forall x, rho x = rho' (path x)) ->
  raw_real_result I src rho = run_text I src rho' /\ (forall v, raw_result I src rho = Some v -> run_text I src rho' = Some v).
Proof.
  intros G T R. unfold translated in T. unfold raw_real_result, raw_result, run_text. rewrite G. destruct (parse raw_voc src) as [p|]; [|discriminate T].
  assert (E : result I rho (real_prog p) = result I rho' p').
  { unfold result. rewrite (same_exec I p rho rho' p' R T). change (path "res"%b) with "res"%b. reflexivity. }
  split; [exact E|]. intros v H. rewrite <- E. apply (le_result I p (real_prog p) rho rho); [|exact H]. apply real_prog_le. intros x w K. exact K.
Qed.
Definition both_translated (c : compiled) : bool := translated (src_pol (c_src c)) (c_pol c) && translated (src_unpol (c_src c)) (c_unpol c).
Lemma all_translated : forallb both_translated all_compiled = true.
Proof. vm_cast_no_check (eq_refl true). Qed.
Lemma one_translated c : In c all_compiled -> both_translated c = true.
Proof. exact (proj1 (forallb_forall both_translated all_compiled) all_translated c). Qed.

(** Arguments of the raw text: same names for the inputs, attributes under their Maple names. *)
Definition raw_attr_env (A : attrs) : env := fun x => attr_env A (path x).
Definition raw_pol_env (A : attrs) (a : pol_args) : env :=
  bind_args [("r0"%b, Some (p_r0 a)); ("r1"%b, Some (p_r1 a));
             ("s0"%b, p_s0 a); ("s1"%b, p_s1 a); ("s2"%b, p_s2 a);
             ("l0"%b, p_l0 a); ("l1"%b, p_l1 a); ("tau0"%b, p_tau0 a); ("tau1"%b, p_tau1 a)]
            (raw_attr_env A).
Definition raw_unpol_env (A : attrs) (a : unpol_args) : env :=
  bind_args [("r0"%b, Some (u_r a)); ("s0"%b, u_s a); ("l0"%b, u_l a); ("tau0"%b, u_tau a)] (raw_attr_env A).
Lemma bind_path l : (forall p, In p l -> local (fst p) = true) -> forall rho rho', (forall x, rho x = rho' (path x)) -> forall x, bind_args l rho x = bind_args l rho' (path x).
Proof.
  induction l as [|(y, v) l IH]; intros L rho rho' R x; [apply R|]. cbn [bind_args]. unfold upd. rewrite (path_upd y x (L (y, v) (or_introl eq_refl))).
  destruct (beqb x y); [reflexivity|]. apply IH; [|exact R]. intros p P. apply L. right; exact P.
Qed.
Theorem formulas_translated f : In f all_sources -> forall I A,
  (forall a, raw_real_result I (src_pol f) (raw_pol_env A a) = pol f I A a /\
             (forall v, raw_result I (src_pol f) (raw_pol_env A a) = Some v -> pol f I A a = Some v)) /\
  (forall a, raw_real_result I (src_unpol f) (raw_unpol_env A a) = unpol f I A a /\
             (forall v, raw_result I (src_unpol f) (raw_unpol_env A a) = Some v -> unpol f I A a = Some v)).
Proof.
  intros F I A. rewrite <- all_compiled_sources in F. apply in_map_iff in F. destruct F as (c & <- & C).
  pose proof (one_translated c C) as T. unfold both_translated in T. apply andb_prop in T. destruct T as (P & U). split; intros a.
  - unfold pol. apply (translated_ok _ _ I _ _ (c_pol_ok c) P). unfold raw_pol_env, pol_env. apply bind_path; [|intros x; reflexivity].
    intros p H. repeat (destruct H as [<-|H]; [reflexivity|]). destruct H.
  - unfold unpol. apply (translated_ok _ _ I _ _ (c_unpol_ok c) U). unfold raw_unpol_env, unpol_env. apply bind_path; [|intros x; reflexivity].
    intros p H. repeat (destruct H as [<-|H]; [reflexivity|]). destruct H.
Qed.

(** A raw text with a value: lda_c_lp96 with all coefficients one, at density one. *)
Ltac look := repeat match goal with |- context [upd ?r ?x ?v ?y] =>
  let b := eval vm_compute in (beqb y x) in
  match b with true => change (upd r x v y) with v | false => change (upd r x v y) with (r y) end end.
Lemma lp96_raw I : raw_result I (src_unpol f_lda_c_lp96)
  (raw_unpol_env (fun _ => Some 1%R) {| u_r := 1; u_s := None; u_l := None; u_tau := None |}) = Some 3%R.
Proof.
  unfold raw_result. set (p := parse _ _). vm_compute in p. subst p. cbv beta iota. unfold result.
  set (rho := raw_unpol_env _ _). assert (P : forall y, pypow 1 y = Some 1%R).
  { intros y. unfold pypow. destruct (Rlt_dec 0 1); [|lra]. unfold Rpower. rewrite ln_1, Rmult_0_r, exp_0. reflexivity. }
  assert (Z : Q2R (3 # 1) <> 0%R) by (unfold Q2R; cbn; lra).
  cbn [exec eval]. look. change (rho "r0"%b) with (Some (VR 1)). change (rho "params_a_C1"%b) with (Some (VR 1)). change (rho "params_a_C2"%b) with (Some (VR 1)). change (rho "params_a_C3"%b) with (Some (VR 1)).
  cbn [lift2]. destruct (Req_EM_T (Q2R (3 # 1)) 0) as [E|_]; [contradiction|]. cbn [lift2]. rewrite P. cbn [lift2]. rewrite P.
  destruct (Req_EM_T 1 0) as [E|_]; [lra|]. cbn [lift2]. f_equal. lra.
Qed.
