(** Evaluation of a formula at one rational point, with bounds, and what it refutes. *)
From Coq Require Import Reals ZArith NArith QArith Qreals Bool List Lra Lia.
From Verif Require Import Bytes Syntax Parser PostProcess Src Ast Semantics Free RPow Families
  Interval IntervalThm IntervalThm2 Absint AbsintThm AbsintThm2 AbsintThm3 Defined Problems.
From Verif Require Norm NormSound.
Import ListNotations.
Open Scope R_scope.

Section Precision.
Context {prc : setting} {pik : pi_known}.

(** ** Statements: at some physical point the two sides have different values *)
Definition spin_asymmetric (f : source) : Prop :=
  exists A a, zeta_ok A /\ pol_ok a /\ forall I, ops_ok I ->
  exists v w, pol f I A a = Some v /\ pol f I A (swap_spins a) = Some w /\ v <> w.
Definition closed_shell_differs (f : source) : Prop :=
  exists A u, zeta_ok A /\ 0 < u_r u /\ onneg (u_s u) /\ forall I, ops_ok I ->
  exists v w, unpol f I A u = Some v /\ pol f I A (closed_shell u) = Some w /\ v <> w.
Definition scales_otherwise (n : nat) (f : source) : Prop :=
  exists A a g, zeta_ok A /\ pol_ok a /\ 0 < g /\ above_threshold A a /\ above_threshold A (scale_args g a) /\
  forall I, ops_ok I ->
  exists v w, pol f I A a = Some v /\ pol f I A (scale_args g a) = Some w /\ w <> g ^ n * v.
Definition spin_scales_otherwise (f : source) : Prop :=
  exists A a, zeta_ok A /\ (exists d, A "p.dens_threshold"%b = Some d) /\ pol_ok a /\ not_clipped A a /\
  forall I, ops_ok I ->
  exists e u d, pol f I A a = Some e /\ unpol f I A (spin_up a) = Some u /\ unpol f I A (spin_down a) = Some d /\
  (p_r0 a + p_r1 a) * e <> (2 * p_r0 a * u + 2 * p_r1 a * d) / 2.
Definition positive_somewhere (f : source) : Prop :=
  exists A a, zeta_ok A /\ pol_ok a /\ forall I, ops_ok I -> exists v, pol f I A a = Some v /\ 0 < v.

(** ** Rational points *)
Definition qlist := list (bstr * Q).
Fixpoint qlook (l : qlist) (x : bstr) : option Q :=
  match l with [] => None | (y, q) :: l => if beqb x y then Some q else qlook l x end.
Definition qget (l : qlist) (x : bstr) : option R := option_map Q2R (qlook l x).
Definition qval (l : qlist) (x : bstr) : R := match qget l x with Some r => r | None => 0 end.
Definition q_pol (xs : qlist) : pol_args := {|
  p_r0 := qval xs "r0"; p_r1 := qval xs "r1"; p_s0 := qget xs "s0"; p_s1 := qget xs "s1"; p_s2 := qget xs "s2";
  p_l0 := qget xs "l0"; p_l1 := qget xs "l1"; p_tau0 := qget xs "tau0"; p_tau1 := qget xs "tau1" |}.
Definition q_unpol (xs : qlist) : unpol_args := {|
  u_r := qval xs "r0"; u_s := qget xs "s0"; u_l := qget xs "l0"; u_tau := qget xs "tau0" |}.

Definition pol_names : list bstr := ["r0"; "r1"; "s0"; "s1"; "s2"; "l0"; "l1"; "tau0"; "tau1"]%b.
Definition unpol_names : list bstr := ["r0"; "s0"; "l0"; "tau0"]%b.
Definition among (l : list bstr) (x : bstr) : bool := existsb (beqb x) l.
Definition point_env (l : qlist) : aenv := map (fun e => (fst e, (AR (of_Q (snd e)) true, None))) l.
Definition at_pol (ps xs : qlist) (c : compiled) : option itv :=
  if forallb (fun e => attr_name (fst e)) ps && forallb (fun e => among pol_names (fst e)) xs && ssa 0 (c_pol c)
  then shown [SPos] (point_env (ps ++ xs)) (c_pol c) else None.
Definition at_unpol (ps xs : qlist) (c : compiled) : option itv :=
  if forallb (fun e => attr_name (fst e)) ps && forallb (fun e => among unpol_names (fst e)) xs && ssa 0 (c_unpol c)
  then shown [SPos] (point_env (ps ++ xs)) (c_unpol c) else None.

Lemma qlook_in l x q : qlook l x = Some q -> exists e, In e l /\ fst e = x.
Proof.
  induction l as [|[y q'] l IH]; cbn [qlook]; [discriminate|]. destruct (beqb x y) eqn:E.
  - apply beqb_eq in E. subst y. intros _. eexists. split; [left; reflexivity|reflexivity].
  - intros H. destruct (IH H) as (e & He & <-). exists e. split; [right; exact He|reflexivity].
Qed.
Lemma qlook_app l k x : qlook (l ++ k) x = match qlook l x with Some q => Some q | None => qlook k x end.
Proof. induction l as [|[y q] l IH]; cbn [qlook app]; [reflexivity|]. destruct (beqb x y); [reflexivity|exact IH]. Qed.
Lemma point_look l x : alook (point_env l) x = match qlook l x with Some q => (AR (of_Q q) true, None) | None => alook [] x end.
Proof. induction l as [|[y q] l IH]; cbn [point_env map alook qlook fst snd]; [reflexivity|]. destruct (beqb x y); [reflexivity|exact IH]. Qed.
Lemma point_env_ok b l rho : (forall x q, qlook l x = Some q -> rho x = Some (VR (Q2R q))) -> forall x, fine b (rho x) (alook (point_env l) x).
Proof.
  intros H x. rewrite point_look. destruct (qlook l x) as [q|] eqn:E.
  - rewrite (H _ _ E). split; [apply of_Q_ok|exact Logic.I].
  - split; cbn [alook fst snd]; [exact Logic.I|]. unfold formed. destruct (rho x) as [[|]|]; exact Logic.I.
Qed.
Lemma name_at ps x q : forallb (fun e : bstr * Q => attr_name (fst e)) ps = true -> qlook ps x = Some q -> attr_name x = true.
Proof. intros H Hx. destruct (qlook_in _ _ _ Hx) as (e & He & <-). rewrite forallb_forall in H. exact (H e He). Qed.
Lemma arg_at (l : list bstr) xs x q : forallb (fun e : bstr * Q => among l (fst e)) xs = true -> qlook xs x = Some q -> In x l.
Proof.
  intros H Hx. destruct (qlook_in _ _ _ Hx) as (e & He & <-). rewrite forallb_forall in H. specialize (H e He).
  unfold among in H. apply existsb_exists in H. destruct H as (y & Hy & E). apply beqb_eq in E. rewrite E. exact Hy.
Qed.
Lemma qval_ok xs x q : qlook xs x = Some q -> qval xs x = Q2R q.
Proof. intros H. unfold qval, qget. rewrite H. reflexivity. Qed.
Lemma qget_ok xs x q : qlook xs x = Some q -> qget xs x = Some (Q2R q).
Proof. intros H. unfold qget. rewrite H. reflexivity. Qed.

Lemma headed1 : headed [1]. Proof. eexists. reflexivity. Qed.
Lemma sorts1 : Forall2 sat_sort [SPos] [1]. Proof. repeat constructor. cbn. lra. Qed.
Lemma pol_point_env ps xs : forallb (fun e : bstr * Q => attr_name (fst e)) ps = true -> forallb (fun e : bstr * Q => among pol_names (fst e)) xs = true ->
  forall x q, qlook (ps ++ xs) x = Some q -> pol_env (qget ps) (q_pol xs) x = Some (VR (Q2R q)).
Proof.
  intros Ep Ex x q Hq. rewrite qlook_app in Hq. destruct (qlook ps x) as [q'|] eqn:Eq.
  - injection Hq as ->. pose proof (name_at _ _ _ Ep Eq) as N. rewrite pol_attr by exact N. rewrite (qget_ok _ _ _ Eq). reflexivity.
  - pose proof (arg_at _ _ _ _ Ex Hq) as N. unfold pol_names in N. cbn [In] in N.
    repeat destruct N as [N|N]; try contradiction; subst x; unfold pol_env, q_pol; cbn [p_r0 p_r1 p_s0 p_s1 p_s2 p_l0 p_l1 p_tau0 p_tau1];
      cbn -[qval qget]; rewrite ?(qval_ok _ _ _ Hq), ?(qget_ok _ _ _ Hq); reflexivity.
Qed.
Lemma unpol_point_env ps xs : forallb (fun e : bstr * Q => attr_name (fst e)) ps = true -> forallb (fun e : bstr * Q => among unpol_names (fst e)) xs = true ->
  forall x q, qlook (ps ++ xs) x = Some q -> unpol_env (qget ps) (q_unpol xs) x = Some (VR (Q2R q)).
Proof.
  intros Ep Ex x q Hq. rewrite qlook_app in Hq. destruct (qlook ps x) as [q'|] eqn:Eq.
  - injection Hq as ->. pose proof (name_at _ _ _ Ep Eq) as N. rewrite unpol_attr by exact N. rewrite (qget_ok _ _ _ Eq). reflexivity.
  - pose proof (arg_at _ _ _ _ Ex Hq) as N. unfold unpol_names in N. cbn [In] in N.
    repeat destruct N as [N|N]; try contradiction; subst x; unfold unpol_env, q_unpol; cbn [u_r u_s u_l u_tau];
      cbn -[qval qget]; rewrite ?(qval_ok _ _ _ Hq), ?(qget_ok _ _ _ Hq); reflexivity.
Qed.
Theorem at_pol_ok ps xs c i I : at_pol ps xs c = Some i -> ops_ok I ->
  exists v, pol (c_src c) I (qget ps) (q_pol xs) = Some v /\ inside i v.
Proof.
  intros H HI. unfold at_pol in H. destruct (_ && _ && _) eqn:E in H; [|discriminate].
  apply andb_prop in E. destruct E as [E Es]. apply andb_prop in E. destruct E as [Ep Ex]. rewrite result_pol.
  refine (shown_ok I HI [1] headed1 [SPos] sorts1 _ _ _ _ _ Es H). apply point_env_ok. exact (pol_point_env _ _ Ep Ex).
Qed.
Theorem at_unpol_ok ps xs c i I : at_unpol ps xs c = Some i -> ops_ok I ->
  exists v, unpol (c_src c) I (qget ps) (q_unpol xs) = Some v /\ inside i v.
Proof.
  intros H HI. unfold at_unpol in H. destruct (_ && _ && _) eqn:E in H; [|discriminate].
  apply andb_prop in E. destruct E as [E Es]. apply andb_prop in E. destruct E as [Ep Ex]. rewrite result_unpol.
  refine (shown_ok I HI [1] headed1 [SPos] sorts1 _ _ _ _ _ Es H). apply point_env_ok. exact (unpol_point_env _ _ Ep Ex).
Qed.

(** ** Points derived from a point *)
Definition rename (f : bstr -> qlist) (xs : qlist) : qlist :=
  flat_map (fun e => map (fun t => (fst t, (snd t * snd e)%Q)) (f (fst e))) xs.
Lemma qlook_scaled q l y : qlook (map (fun t : bstr * Q => (fst t, (snd t * q)%Q)) l) y = option_map (fun k => (k * q)%Q) (qlook l y).
Proof. induction l as [|[x k] l IH]; cbn [map qlook fst snd]; [reflexivity|]. destruct (beqb y x); [reflexivity|exact IH]. Qed.
Lemma beqb_sym s t : beqb s t = beqb t s.
Proof.
  destruct (beqb s t) eqn:E; [apply beqb_eq in E; subst; symmetry; apply beqb_refl|].
  destruct (beqb t s) eqn:F; [apply beqb_eq in F; subst; rewrite beqb_refl in E; discriminate|reflexivity].
Qed.
Lemma qlook_rename f x y k : (forall z, qlook (f z) y = if beqb z x then Some k else None) ->
  forall xs, qlook (rename f xs) y = option_map (Qmult k) (qlook xs x).
Proof.
  intros H. induction xs as [|[z q] xs IH]; cbn [rename flat_map qlook fst snd]; [reflexivity|].
  rewrite qlook_app, qlook_scaled, H. rewrite (beqb_sym x z). destruct (beqb z x); cbn [option_map]; [reflexivity|exact IH].
Qed.
Lemma qget_rename f x y k : (forall z, qlook (f z) y = if beqb z x then Some k else None) ->
  forall xs, qget (rename f xs) y = omap (Rmult (Q2R k)) (qget xs x).
Proof. intros H xs. unfold qget. rewrite (qlook_rename f x y k H). destruct (qlook xs x); cbn [option_map omap]; [rewrite Q2R_mult|]; reflexivity. Qed.
Lemma qval_rename f x y k : (forall z, qlook (f z) y = if beqb z x then Some k else None) ->
  forall xs, qval (rename f xs) y = Q2R k * qval xs x.
Proof. intros H xs. unfold qval. rewrite (qget_rename f x y k H). destruct (qget xs x); cbn [omap]; ring. Qed.

Definition case (l : list (bstr * qlist)) (x : bstr) : qlist :=
  match find (fun e => beqb x (fst e)) l with Some e => snd e | None => [] end.
Definition to_swapped := case [("r0", [("r1", 1%Q)]); ("r1", [("r0", 1%Q)]); ("s0", [("s2", 1%Q)]); ("s1", [("s1", 1%Q)]); ("s2", [("s0", 1%Q)]);
  ("l0", [("l1", 1%Q)]); ("l1", [("l0", 1%Q)]); ("tau0", [("tau1", 1%Q)]); ("tau1", [("tau0", 1%Q)])]%b.
Definition to_closed := case [("r0", [("r0", 1#2); ("r1", 1#2)]); ("s0", [("s0", 1#4); ("s1", 1#4); ("s2", 1#4)]);
  ("l0", [("l0", 1#2); ("l1", 1#2)]); ("tau0", [("tau0", 1#2); ("tau1", 1#2)])]%b%Q.
Definition to_scaled (g : Q) := case [("r0", [("r0", g^3)]); ("r1", [("r1", g^3)]); ("s0", [("s0", g^8)]); ("s1", [("s1", g^8)]); ("s2", [("s2", g^8)]);
  ("l0", [("l0", g^5)]); ("l1", [("l1", g^5)]); ("tau0", [("tau0", g^5)]); ("tau1", [("tau1", g^5)])]%b%Q.
Definition to_up := case [("r0", [("r0", 2)]); ("s0", [("s0", 4)]); ("l0", [("l0", 2)]); ("tau0", [("tau0", 2)])]%b%Q.
Definition to_down := case [("r1", [("r0", 2)]); ("s2", [("s0", 4)]); ("l1", [("l0", 2)]); ("tau1", [("tau0", 2)])]%b%Q.

Ltac one_source := let z := fresh "z" in intros z; unfold to_swapped, to_closed, to_scaled, to_up, to_down, case; cbn [find fst];
  repeat match goal with |- context [beqb z ?n] =>
    let E := fresh "E" in destruct (beqb z n) eqn:E; [apply beqb_eq in E; subst z; reflexivity|] end; reflexivity.
Lemma omap_ext f g o : (forall x, f x = g x) -> omap f o = omap g o.
Proof. intros H. destruct o; cbn [omap]; [rewrite H|]; reflexivity. Qed.
Lemma omap_id f o : (forall x, f x = x) -> omap f o = o.
Proof. intros H. destruct o; cbn [omap]; [rewrite H|]; reflexivity. Qed.
Lemma pow3 g : Q2R (g ^ 3) = Q2R g ^ 3. Proof. unfold Qpower, Qpower_positive. cbn [pow_pos]. rewrite !Q2R_mult. ring. Qed.
Lemma pow8 g : Q2R (g ^ 8) = Q2R g ^ 8. Proof. unfold Qpower, Qpower_positive. cbn [pow_pos]. rewrite !Q2R_mult. ring. Qed.
Lemma pow5 g : Q2R (g ^ 5) = Q2R g ^ 5. Proof. unfold Qpower, Qpower_positive. cbn [pow_pos]. rewrite !Q2R_mult. ring. Qed.
Lemma Q2R_1' : Q2R 1 = 1. Proof. unfold Q2R; cbn; lra. Qed.
Lemma Q2R_2' : Q2R 2 = 2. Proof. unfold Q2R; cbn; lra. Qed.
Lemma Q2R_4' : Q2R 4 = 4. Proof. unfold Q2R; cbn; lra. Qed.

Lemma swapped_point xs : q_pol (rename to_swapped xs) = swap_spins (q_pol xs).
Proof.
  unfold q_pol, swap_spins. cbn [p_r0 p_r1 p_s0 p_s1 p_s2 p_l0 p_l1 p_tau0 p_tau1].
  f_equal; first
    [rewrite (qval_rename to_swapped "r1"%b "r0"%b 1) by one_source|rewrite (qval_rename to_swapped "r0"%b "r1"%b 1) by one_source
    |rewrite (qget_rename to_swapped "s2"%b "s0"%b 1) by one_source|rewrite (qget_rename to_swapped "s1"%b "s1"%b 1) by one_source
    |rewrite (qget_rename to_swapped "s0"%b "s2"%b 1) by one_source|rewrite (qget_rename to_swapped "l1"%b "l0"%b 1) by one_source
    |rewrite (qget_rename to_swapped "l0"%b "l1"%b 1) by one_source|rewrite (qget_rename to_swapped "tau1"%b "tau0"%b 1) by one_source
    |rewrite (qget_rename to_swapped "tau0"%b "tau1"%b 1) by one_source]; rewrite Q2R_1'; first [apply omap_id; intros; ring|ring].
Qed.
Lemma closed_point xs : q_pol (rename to_closed xs) = closed_shell (q_unpol xs).
Proof.
  unfold q_pol, closed_shell, q_unpol. cbn [u_r u_s u_l u_tau].
  f_equal; first
    [rewrite (qval_rename to_closed "r0"%b "r0"%b (1#2)) by one_source|rewrite (qval_rename to_closed "r0"%b "r1"%b (1#2)) by one_source
    |rewrite (qget_rename to_closed "s0"%b "s0"%b (1#4)) by one_source|rewrite (qget_rename to_closed "s0"%b "s1"%b (1#4)) by one_source
    |rewrite (qget_rename to_closed "s0"%b "s2"%b (1#4)) by one_source|rewrite (qget_rename to_closed "l0"%b "l0"%b (1#2)) by one_source
    |rewrite (qget_rename to_closed "l0"%b "l1"%b (1#2)) by one_source|rewrite (qget_rename to_closed "tau0"%b "tau0"%b (1#2)) by one_source
    |rewrite (qget_rename to_closed "tau0"%b "tau1"%b (1#2)) by one_source];
    rewrite ?Q2R_half, ?Q2R_quarter; first [apply omap_ext; intros; field|field].
Qed.
Lemma scaled_point g xs : q_pol (rename (to_scaled g) xs) = scale_args (Q2R g) (q_pol xs).
Proof.
  unfold q_pol, scale_args. cbn [p_r0 p_r1 p_s0 p_s1 p_s2 p_l0 p_l1 p_tau0 p_tau1].
  f_equal; first
    [rewrite (qval_rename (to_scaled g) "r0"%b "r0"%b (g^3)) by one_source|rewrite (qval_rename (to_scaled g) "r1"%b "r1"%b (g^3)) by one_source
    |rewrite (qget_rename (to_scaled g) "s0"%b "s0"%b (g^8)) by one_source|rewrite (qget_rename (to_scaled g) "s1"%b "s1"%b (g^8)) by one_source
    |rewrite (qget_rename (to_scaled g) "s2"%b "s2"%b (g^8)) by one_source|rewrite (qget_rename (to_scaled g) "l0"%b "l0"%b (g^5)) by one_source
    |rewrite (qget_rename (to_scaled g) "l1"%b "l1"%b (g^5)) by one_source|rewrite (qget_rename (to_scaled g) "tau0"%b "tau0"%b (g^5)) by one_source
    |rewrite (qget_rename (to_scaled g) "tau1"%b "tau1"%b (g^5)) by one_source];
    rewrite ?pow3, ?pow8, ?pow5; reflexivity.
Qed.
Lemma up_point xs : q_unpol (rename to_up xs) = spin_up (q_pol xs).
Proof.
  unfold q_unpol, spin_up, q_pol. cbn [p_r0 p_r1 p_s0 p_s1 p_s2 p_l0 p_l1 p_tau0 p_tau1].
  f_equal; first
    [rewrite (qval_rename to_up "r0"%b "r0"%b 2) by one_source|rewrite (qget_rename to_up "s0"%b "s0"%b 4) by one_source
    |rewrite (qget_rename to_up "l0"%b "l0"%b 2) by one_source|rewrite (qget_rename to_up "tau0"%b "tau0"%b 2) by one_source];
    rewrite ?Q2R_2', ?Q2R_4'; reflexivity.
Qed.
Lemma down_point xs : q_unpol (rename to_down xs) = spin_down (q_pol xs).
Proof.
  unfold q_unpol, spin_down, q_pol. cbn [p_r0 p_r1 p_s0 p_s1 p_s2 p_l0 p_l1 p_tau0 p_tau1].
  f_equal; first
    [rewrite (qval_rename to_down "r1"%b "r0"%b 2) by one_source|rewrite (qget_rename to_down "s2"%b "s0"%b 4) by one_source
    |rewrite (qget_rename to_down "l1"%b "l0"%b 2) by one_source|rewrite (qget_rename to_down "tau1"%b "tau0"%b 2) by one_source];
    rewrite ?Q2R_2', ?Q2R_4'; reflexivity.
Qed.

(** ** Checkers *)
Definition apart (o p : option itv) : bool :=
  match o, p with Some i, Some j => bnd_lt (hi i) (lo j) || bnd_lt (hi j) (lo i) | _, _ => false end.
Definition qlt (a b : Q) : bool := negb (Qle_bool b a).
Definition q_zeta (ps : qlist) : bool := match qlook ps "p.zeta_threshold" with Some z => qlt 0 z && qlt z 1 | None => false end.
Definition q_pos (xs : qlist) (x : bstr) : bool := match qlook xs x with Some q => qlt 0 q | None => false end.
Definition q_nonneg (xs : qlist) (x : bstr) : bool := match qlook xs x with Some q => Qle_bool 0 q | None => true end.
Definition q_pol_ok (xs : qlist) : bool := q_pos xs "r0" && q_pos xs "r1" && q_nonneg xs "s0" && q_nonneg xs "s2".
Definition q_above (ps xs : qlist) : bool :=
  match qlook ps "p.dens_threshold", qlook xs "r0", qlook xs "r1" with
  | Some d, Some a, Some b => qlt d a && qlt d b
  | _, _, _ => false end.
Definition q_unclipped (ps xs : qlist) : bool :=
  match qlook ps "p.zeta_threshold", qlook xs "r0", qlook xs "r1" with
  | Some z, Some a, Some b => qlt 0 (a + b) && qlt (z * (a + b)) (2 * a) && qlt (z * (a + b)) (2 * b)
  | _, _, _ => false end.
Definition times (q : Q) (o : option itv) : option itv := option_map (imul (of_Q q)) o.
Definition plus (o p : option itv) : option itv := match o, p with Some i, Some j => Some (iadd i j) | _, _ => None end.

Definition refute_swap (ps xs : qlist) (c : compiled) : bool :=
  q_zeta ps && q_pol_ok xs && apart (at_pol ps xs c) (at_pol ps (rename to_swapped xs) c).
Definition refute_closed (ps xs : qlist) (c : compiled) : bool :=
  q_zeta ps && (q_pos xs "r0" && q_nonneg xs "s0") && apart (at_unpol ps xs c) (at_pol ps (rename to_closed xs) c).
Definition refute_scale (n : nat) (g : Q) (ps xs : qlist) (c : compiled) : bool :=
  q_zeta ps && q_pol_ok xs && qlt 0 g && q_above ps xs && q_above ps (rename (to_scaled g) xs) &&
  apart (at_pol ps (rename (to_scaled g) xs) c) (times (Qpower g (Z.of_nat n)) (at_pol ps xs c)).
Definition refute_spin (ps xs : qlist) (c : compiled) : bool :=
  q_zeta ps && q_above ps xs && q_pol_ok xs && q_unclipped ps xs &&
  match qlook xs "r0", qlook xs "r1" with
  | Some a, Some b => apart (times (a + b) (at_pol ps xs c))
      (plus (times a (at_unpol ps (rename to_up xs) c)) (times b (at_unpol ps (rename to_down xs) c)))
  | _, _ => false end.
Definition refute_sign (ps xs : qlist) (c : compiled) : bool :=
  q_zeta ps && q_pol_ok xs && match at_pol ps xs c with Some i => lo_pos i | None => false end.

Lemma qlt_ok a b : qlt a b = true -> Q2R a < Q2R b.
Proof.
  unfold qlt. intros H. apply negb_true_iff in H. apply Qlt_Rlt. apply Qnot_le_lt. intros C. apply Qle_bool_iff in C. congruence.
Qed.
Lemma qle_ok a b : Qle_bool a b = true -> Q2R a <= Q2R b.
Proof. intros H. apply Qle_Rle, Qle_bool_iff, H. Qed.
Lemma q_zeta_ok ps : q_zeta ps = true -> zeta_ok (qget ps).
Proof.
  unfold q_zeta. destruct (qlook ps "p.zeta_threshold") as [z|] eqn:E; [|discriminate]. intros H. apply andb_prop in H. destruct H as [A B].
  apply qlt_ok in A. apply qlt_ok in B. rewrite RPow.Q2R_0 in A. rewrite Q2R_1' in B. exists (Q2R z). split; [exact (qget_ok _ _ _ E)|lra].
Qed.
Lemma q_pos_ok xs x : q_pos xs x = true -> 0 < qval xs x.
Proof.
  unfold q_pos. destruct (qlook xs x) as [q|] eqn:E; [|discriminate]. intros H. apply qlt_ok in H. rewrite RPow.Q2R_0 in H. rewrite (qval_ok _ _ _ E). exact H.
Qed.
Lemma q_nonneg_ok xs x : q_nonneg xs x = true -> onneg (qget xs x).
Proof.
  unfold q_nonneg, qget, onneg. destruct (qlook xs x) as [q|] eqn:E; cbn [option_map]; [|intros; exact Logic.I]. intros H. apply qle_ok in H. rewrite RPow.Q2R_0 in H. exact H.
Qed.
Lemma q_pol_ok_ok xs : q_pol_ok xs = true -> pol_ok (q_pol xs).
Proof.
  unfold q_pol_ok. intros H. repeat (apply andb_prop in H; destruct H as [H ?]).
  repeat split; cbn [q_pol p_r0 p_r1 p_s0 p_s2]; auto using q_pos_ok, q_nonneg_ok.
Qed.
Lemma q_above_ok ps xs : q_above ps xs = true -> above_threshold (qget ps) (q_pol xs).
Proof.
  unfold q_above. destruct (qlook ps "p.dens_threshold") as [d|] eqn:D; [|discriminate].
  destruct (qlook xs "r0") as [a|] eqn:A; [|discriminate]. destruct (qlook xs "r1") as [b|] eqn:B; [|discriminate].
  intros H. apply andb_prop in H. destruct H as [H1 H2]. apply qlt_ok in H1. apply qlt_ok in H2.
  exists (Q2R d). cbn [q_pol p_r0 p_r1]. rewrite (qval_ok _ _ _ A), (qval_ok _ _ _ B). split; [exact (qget_ok _ _ _ D)|split; assumption].
Qed.
Lemma q_unclipped_ok ps xs : q_unclipped ps xs = true -> not_clipped (qget ps) (q_pol xs).
Proof.
  unfold q_unclipped. destruct (qlook ps "p.zeta_threshold") as [z|] eqn:D; [|discriminate].
  destruct (qlook xs "r0") as [a|] eqn:A; [|discriminate]. destruct (qlook xs "r1") as [b|] eqn:B; [|discriminate].
  intros H. apply andb_prop in H. destruct H as [H H2]. apply andb_prop in H. destruct H as [H0 H1].
  apply qlt_ok in H0. apply qlt_ok in H1. apply qlt_ok in H2. rewrite ?Q2R_mult, ?Q2R_plus, ?RPow.Q2R_0, ?Q2R_2' in *.
  intros z' Hz. rewrite (qget_ok _ _ _ D) in Hz. injection Hz as <-. cbn [q_pol p_r0 p_r1]. rewrite (qval_ok _ _ _ A), (qval_ok _ _ _ B).
  split; (apply (Rmult_lt_reg_r (Q2R a + Q2R b)); [lra|]); unfold Rdiv; rewrite Rmult_assoc, Rinv_l, Rmult_1_r by lra; lra.
Qed.
Lemma apart_ok i j x y : apart (Some i) (Some j) = true -> inside i x -> inside j y -> x <> y.
Proof.
  cbn [apart]. intros H [A B] [C D] E. subst y. apply orb_prop in H. destruct H as [H|H].
  - pose proof (bnd_lt_ok _ _ _ _ H B C). lra.
  - pose proof (bnd_lt_ok _ _ _ _ H D A). lra.
Qed.

Theorem refute_swap_sound ps xs c : refute_swap ps xs c = true -> spin_asymmetric (c_src c).
Proof.
  unfold refute_swap. intros H. apply andb_prop in H. destruct H as [H Ha]. apply andb_prop in H. destruct H as [Hz Hp].
  exists (qget ps), (q_pol xs). split; [exact (q_zeta_ok _ Hz)|]. split; [exact (q_pol_ok_ok _ Hp)|]. intros I HI.
  destruct (at_pol ps xs c) as [i|] eqn:E1; [|discriminate]. destruct (at_pol ps (rename to_swapped xs) c) as [j|] eqn:E2; [|discriminate].
  destruct (at_pol_ok _ _ _ _ I E1 HI) as (v & Hv & Iv). destruct (at_pol_ok _ _ _ _ I E2 HI) as (w & Hw & Iw).
  rewrite swapped_point in Hw. exists v, w. split; [exact Hv|]. split; [exact Hw|]. exact (apart_ok _ _ _ _ Ha Iv Iw).
Qed.
Theorem refute_closed_sound ps xs c : refute_closed ps xs c = true -> closed_shell_differs (c_src c).
Proof.
  unfold refute_closed. intros H. apply andb_prop in H. destruct H as [H Ha]. apply andb_prop in H. destruct H as [Hz Hp]. apply andb_prop in Hp. destruct Hp as [Hr Hs].
  exists (qget ps), (q_unpol xs). split; [exact (q_zeta_ok _ Hz)|]. split; [exact (q_pos_ok _ _ Hr)|]. split; [exact (q_nonneg_ok _ _ Hs)|]. intros I HI.
  destruct (at_unpol ps xs c) as [i|] eqn:E1; [|discriminate]. destruct (at_pol ps (rename to_closed xs) c) as [j|] eqn:E2; [|discriminate].
  destruct (at_unpol_ok _ _ _ _ I E1 HI) as (v & Hv & Iv). destruct (at_pol_ok _ _ _ _ I E2 HI) as (w & Hw & Iw).
  rewrite closed_point in Hw. exists v, w. split; [exact Hv|]. split; [exact Hw|]. exact (apart_ok _ _ _ _ Ha Iv Iw).
Qed.
(** Two equal spin channels have the energy of the unpolarised form by spin scaling. *)
Lemma omap_back f g o : (forall x, f (g x) = x) -> omap f (omap g o) = o.
Proof. intros H. destruct o as [x|]; cbn [omap]; [rewrite H|]; reflexivity. Qed.
Lemma up_closed u : spin_up (closed_shell u) = u.
Proof.
  destruct u as [r s l t]. unfold spin_up, closed_shell. cbn [p_r0 p_s0 p_l0 p_tau0 u_r u_s u_l u_tau].
  rewrite !omap_back by (intros; field). f_equal. field.
Qed.
Lemma down_closed u : spin_down (closed_shell u) = u.
Proof.
  destruct u as [r s l t]. unfold spin_down, closed_shell. cbn [p_r1 p_s2 p_l1 p_tau1 u_r u_s u_l u_tau].
  rewrite !omap_back by (intros; field). f_equal. field.
Qed.
Definition refute_both (ps xs : qlist) (c : compiled) : bool :=
  match qlook ps "p.dens_threshold" with Some _ => refute_closed ps xs c | None => false end.
Theorem refute_both_sound ps xs c : refute_both ps xs c = true -> closed_shell_differs (c_src c) /\ spin_scales_otherwise (c_src c).
Proof.
  unfold refute_both. destruct (qlook ps "p.dens_threshold") as [d|] eqn:D; [|discriminate]. intros H. split; [exact (refute_closed_sound _ _ _ H)|].
  unfold refute_closed in H. apply andb_prop in H. destruct H as [H Ha]. apply andb_prop in H. destruct H as [Hz Hp]. apply andb_prop in Hp. destruct Hp as [Hr Hs].
  apply q_zeta_ok in Hz. apply q_pos_ok in Hr. apply q_nonneg_ok in Hs. set (u := q_unpol xs).
  exists (qget ps), (closed_shell u). split; [exact Hz|]. split; [exists (Q2R d); exact (qget_ok _ _ _ D)|].
  change (0 < u_r u) in Hr. change (onneg (u_s u)) in Hs.
  assert (Hn : onneg (omap (fun x => x / 4) (u_s u))) by (destruct (u_s u); cbn [onneg omap] in *; lra).
  split; [unfold pol_ok, closed_shell; cbn [p_r0 p_r1 p_s0 p_s2]; repeat split; try assumption; lra|].
  split.
  - intros z Ez. destruct Hz as (z' & Ez' & Z0 & Z1). rewrite Ez in Ez'. injection Ez' as <-.
    unfold closed_shell. cbn [p_r0 p_r1]. replace (2 * (u_r u / 2) / (u_r u / 2 + u_r u / 2)) with 1 by (field; lra). split; exact Z1.
  - intros I HI. destruct (at_unpol ps xs c) as [i|] eqn:E1; [|discriminate]. destruct (at_pol ps (rename to_closed xs) c) as [j|] eqn:E2; [|discriminate].
    destruct (at_unpol_ok _ _ _ _ I E1 HI) as (v & Hv & Iv). destruct (at_pol_ok _ _ _ _ I E2 HI) as (w & Hw & Iw).
    rewrite closed_point in Hw. rewrite up_closed, down_closed. exists w, v, v. split; [exact Hw|]. split; [exact Hv|]. split; [exact Hv|].
    pose proof (apart_ok _ _ _ _ Ha Iv Iw) as N. intros E. apply N. unfold closed_shell in E. cbn [p_r0 p_r1] in E.
    apply (Rmult_eq_reg_l (u_r u)); lra.
Qed.
Lemma pow_n g n : Q2R (Qpower g (Z.of_nat n)) = Q2R g ^ n.
Proof.
  destruct n as [|n]; [cbn; exact Q2R_1'|]. change (Z.of_nat (S n)) with (Zpos (Pos.of_succ_nat n)). cbn [Qpower].
  pose proof (NormSound.Q2R_qpown g (Pos.of_succ_nat n)) as H. rewrite NormSound.qpown_power in H.
  rewrite H. f_equal. apply SuccNat2Pos.id_succ.
Qed.
Theorem refute_scale_sound n g ps xs c : refute_scale n g ps xs c = true -> scales_otherwise n (c_src c).
Proof.
  unfold refute_scale. intros H. apply andb_prop in H. destruct H as [H Ha]. apply andb_prop in H. destruct H as [H H2]. apply andb_prop in H. destruct H as [H H1].
  apply andb_prop in H. destruct H as [H Hg]. apply andb_prop in H. destruct H as [Hz Hp]. apply qlt_ok in Hg. rewrite RPow.Q2R_0 in Hg.
  exists (qget ps), (q_pol xs), (Q2R g). split; [exact (q_zeta_ok _ Hz)|]. split; [exact (q_pol_ok_ok _ Hp)|]. split; [exact Hg|].
  split; [exact (q_above_ok _ _ H1)|]. split; [rewrite <- scaled_point; exact (q_above_ok _ _ H2)|]. intros I HI.
  destruct (at_pol ps xs c) as [i|] eqn:E1; [|destruct (at_pol ps (rename (to_scaled g) xs) c); discriminate].
  destruct (at_pol ps (rename (to_scaled g) xs) c) as [j|] eqn:E2; [|discriminate].
  destruct (at_pol_ok _ _ _ _ I E1 HI) as (v & Hv & Iv). destruct (at_pol_ok _ _ _ _ I E2 HI) as (w & Hw & Iw).
  rewrite scaled_point in Hw. exists v, w. split; [exact Hv|]. split; [exact Hw|]. rewrite <- pow_n.
  cbn [times option_map] in Ha. exact (apart_ok _ _ _ _ Ha Iw (imul_ok _ _ _ _ (of_Q_ok _) Iv)).
Qed.
Theorem refute_spin_sound ps xs c : refute_spin ps xs c = true -> spin_scales_otherwise (c_src c).
Proof.
  unfold refute_spin. intros H. apply andb_prop in H. destruct H as [H Ha]. apply andb_prop in H. destruct H as [H Hu]. apply andb_prop in H. destruct H as [H Hp].
  apply andb_prop in H. destruct H as [Hz Hd].
  exists (qget ps), (q_pol xs). split; [exact (q_zeta_ok _ Hz)|]. split; [destruct (q_above_ok _ _ Hd) as (d & E & _); exists d; exact E|].
  split; [exact (q_pol_ok_ok _ Hp)|]. split; [exact (q_unclipped_ok _ _ Hu)|]. intros I HI.
  destruct (qlook xs "r0") as [a|] eqn:A; [|discriminate]. destruct (qlook xs "r1") as [b|] eqn:B; [|discriminate].
  destruct (at_pol ps xs c) as [i|] eqn:E1; [|discriminate].
  destruct (at_unpol ps (rename to_up xs) c) as [j|] eqn:E2; [|discriminate]. destruct (at_unpol ps (rename to_down xs) c) as [k|] eqn:E3; [|discriminate].
  destruct (at_pol_ok _ _ _ _ I E1 HI) as (e & He & Ie). destruct (at_unpol_ok _ _ _ _ I E2 HI) as (u & Hu' & Iu). destruct (at_unpol_ok _ _ _ _ I E3 HI) as (d & Hd' & Id).
  rewrite up_point in Hu'. rewrite down_point in Hd'. exists e, u, d. split; [exact He|]. split; [exact Hu'|]. split; [exact Hd'|].
  cbn [times option_map plus] in Ha.
  pose proof (apart_ok _ _ _ _ Ha (imul_ok _ _ _ _ (of_Q_ok _) Ie) (iadd_ok _ _ _ _ (imul_ok _ _ _ _ (of_Q_ok a) Iu) (imul_ok _ _ _ _ (of_Q_ok b) Id))) as N.
  cbn [q_pol p_r0 p_r1]. rewrite (qval_ok _ _ _ A), (qval_ok _ _ _ B). rewrite Q2R_plus in N. lra.
Qed.
Theorem refute_sign_sound ps xs c : refute_sign ps xs c = true -> positive_somewhere (c_src c).
Proof.
  unfold refute_sign. intros H. apply andb_prop in H. destruct H as [H Ha]. apply andb_prop in H. destruct H as [Hz Hp].
  exists (qget ps), (q_pol xs). split; [exact (q_zeta_ok _ Hz)|]. split; [exact (q_pol_ok_ok _ Hp)|]. intros I HI.
  destruct (at_pol ps xs c) as [i|] eqn:E1; [|discriminate]. destruct (at_pol_ok _ _ _ _ I E1 HI) as (v & Hv & Iv).
  exists v. split; [exact Hv|exact (lo_pos_ok _ _ Ha Iv)].
Qed.

(** What the witnesses refute. *)
Lemma sample_differs {P : interp -> Prop} : (forall I, ops_ok I -> P I) -> P sample_ops.
Proof. intros H. exact (H _ sample_ops_ok). Qed.
Theorem asymmetric_refutes f : spin_asymmetric f -> ~ spin_symmetric f.
Proof. intros (A & a & Hz & Ha & H) S. destruct (sample_differs H) as (v & w & Hv & Hw & N). exact (N (S _ A a Hz Ha _ _ Hv Hw)). Qed.
Theorem differs_refutes f : closed_shell_differs f -> ~ closed_shell_agrees f.
Proof. intros (A & u & Hz & Hr & Hs & H) S. destruct (sample_differs H) as (v & w & Hv & Hw & N). exact (N (S _ A u Hz Hr Hs _ _ Hv Hw)). Qed.
Theorem otherwise_refutes n f : scales_otherwise n f -> ~ scales_with n f.
Proof.
  intros (A & a & g & Hz & Ha & Hg & H1 & H2 & H) S. destruct (sample_differs H) as (v & w & Hv & Hw & N).
  exact (N (S _ A a g Hz Ha Hg H1 H2 _ _ Hv Hw)).
Qed.
Theorem spin_otherwise_refutes f : spin_scales_otherwise f -> ~ spin_scales f.
Proof.
  intros (A & a & Hz & Hd & Ha & Hc & H) S. destruct (sample_differs H) as (e & u & d & He & Hu & Hd' & N).
  exact (N (S _ A a Hz Hd Ha Hc _ _ _ He Hu Hd')).
Qed.

(** ** The points used *)
(** Every parameter that the two formulas read: the two thresholds 10^-8, the others [v]. *)
Definition params_at (v : Q) (c : compiled) : qlist :=
  map (fun x => (x, if beqb x "p.zeta_threshold" || beqb x "p.dens_threshold" then (1 # 100000000)%Q else v))
    (fold_left (fun l x => if mem x l then l else x :: l) (filter attr_name (free (c_pol c) ++ free (c_unpol c)))
       ["p.zeta_threshold"; "p.dens_threshold"]%b).
(** A point with a kinetic-energy density above the von Weizsaecker value of either channel. *)
Definition some_point : qlist := [
  ("r0", 11 # 20); ("r1", 9 # 20); ("s0", 3 # 20); ("s1", 1 # 40); ("s2", 1 # 10); ("l0", 1 # 5); ("l1", - 1 # 10);
  ("tau0", 9 # 20); ("tau1", 3 # 10)]%b%Q.

(** ** The uniform gas *)
Definition misses_limit (e : R -> R -> R) (f : source) : Prop :=
  exists A r0 r1, zeta_ok A /\ 0 < r0 /\ 0 < r1 /\ not_clipped A (uniform_gas r0 r1) /\ above_threshold A (uniform_gas r0 r1) /\
  forall I, ops_ok I -> exists v, pol f I A (uniform_gas r0 r1) = Some v /\ (r0 + r1) * v <> e r0 r1.
Theorem misses_refutes e f : misses_limit e f -> ~ uniform_limit e [] f.
Proof.
  intros (A & r0 & r1 & Hz & H0 & H1 & Hc & Ha & H) S. destruct (sample_differs H) as (v & Hv & N).
  exact (N (S _ A r0 r1 Hz H0 H1 ltac:(intros x q []) Hc Ha v Hv)).
Qed.
Definition flat (a b : Q) : qlist := [("r0", a); ("r1", b); ("s0", 0); ("s1", 0); ("s2", 0); ("l0", 0); ("l1", 0)]%b%Q.
Definition gas_env (ps : qlist) (a b : Q) : aenv :=
  let e := point_env (ps ++ flat a b) in
  ("tau0"%b, aev [SPos] e [] 0 [] (tf_tau "r0")) :: ("tau1"%b, aev [SPos] e [] 0 [] (tf_tau "r1")) :: e.
Definition refute_uniform (target : expr) (a b : Q) (ps : qlist) (c : compiled) : bool :=
  q_zeta ps && (qlt 0 a && qlt 0 b) && q_above ps (flat a b) && q_unclipped ps (flat a b) &&
  (forallb (fun e => attr_name (fst e)) ps && ssa 0 (c_pol c)) &&
  apart (times (a + b) (shown [SPos] (gas_env ps a b) (c_pol c)))
    (match fst (aev [SPos] (point_env (ps ++ flat a b)) [] 0 [] target) with AR i true => Some i | _ => None end).

Section Gas.
Variables (target : expr) (e : R -> R -> R).
Hypothesis Ht : forall I (G : Semantics.env) r0 r1, G "r0"%b = Some (VR r0) -> G "r1"%b = Some (VR r1) -> 0 < r0 -> 0 < r1 ->
  eval I G target = Some (VR (e r0 r1)).
Lemma flat_env ps a b : forallb (fun e : bstr * Q => attr_name (fst e)) ps = true ->
  forall x q, qlook (ps ++ flat a b) x = Some q -> pol_env (qget ps) (uniform_gas (Q2R a) (Q2R b)) x = Some (VR (Q2R q)).
Proof.
  intros Ep x q Hq. rewrite qlook_app in Hq. destruct (qlook ps x) as [q'|] eqn:Eq.
  - injection Hq as ->. pose proof (name_at _ _ _ Ep Eq) as N. rewrite pol_attr by exact N. rewrite (qget_ok _ _ _ Eq). reflexivity.
  - unfold flat in Hq. cbn [qlook] in Hq.
    repeat match type of Hq with (if beqb x ?y then _ else _) = _ => let E := fresh "E" in destruct (beqb x y) eqn:E;
      [apply beqb_eq in E; subst x; injection Hq as <-; unfold pol_env, uniform_gas; cbn -[Q2R tf]; rewrite ?RPow.Q2R_0; reflexivity|clear E] end.
    discriminate.
Qed.
Theorem refute_uniform_sound a b ps c : refute_uniform target a b ps c = true -> misses_limit e (c_src c).
Proof.
  unfold refute_uniform. intros H. apply andb_prop in H. destruct H as [H Ha]. apply andb_prop in H. destruct H as [H Hn]. apply andb_prop in Hn. destruct Hn as [Hn Hs].
  apply andb_prop in H. destruct H as [H Hu]. apply andb_prop in H. destruct H as [H Hd]. apply andb_prop in H. destruct H as [Hz Hp]. apply andb_prop in Hp. destruct Hp as [H0 H1].
  apply qlt_ok in H0. apply qlt_ok in H1. rewrite RPow.Q2R_0 in H0, H1.
  exists (qget ps), (Q2R a), (Q2R b). split; [exact (q_zeta_ok _ Hz)|]. split; [exact H0|]. split; [exact H1|].
  split; [intros z Hz'; exact (q_unclipped_ok _ _ Hu z Hz')|]. split; [exact (q_above_ok _ _ Hd)|]. intros I HI.
  set (rho := pol_env (qget ps) (uniform_gas (Q2R a) (Q2R b))).
  assert (E : forall x, fine [1] (rho x) (alook (point_env (ps ++ flat a b)) x)) by (apply point_env_ok; exact (flat_env ps a b Hn)).
  assert (V : forall f, fine [1] (eval I rho f) (aev [SPos] (point_env (ps ++ flat a b)) [] 0 [] f)).
  { intros f. apply (aev_ok I HI [1] headed1 [SPos] sorts1 rho _ [] E); [intros x g Hx; discriminate|]. intros g i x []. }
  assert (G0 : rho "r0"%b = Some (VR (Q2R a))) by reflexivity. assert (G1 : rho "r1"%b = Some (VR (Q2R b))) by reflexivity.
  assert (F : forall x, fine [1] (rho x) (alook (gas_env ps a b) x)).
  { intros x. unfold gas_env. cbn [alook]. destruct (beqb x "tau0") eqn:E0; [|destruct (beqb x "tau1") eqn:E1; [|apply E]].
    - apply beqb_eq in E0. subst x. change (rho "tau0"%b) with (Some (VR (tf (Q2R a)))). rewrite <- (eval_tf I rho _ _ G0 H0). apply V.
    - apply beqb_eq in E1. subst x. change (rho "tau1"%b) with (Some (VR (tf (Q2R b)))). rewrite <- (eval_tf I rho _ _ G1 H1). apply V. }
  destruct (shown [SPos] (gas_env ps a b) (c_pol c)) as [i|] eqn:S; [|discriminate].
  destruct (shown_ok I HI [1] headed1 [SPos] sorts1 _ _ _ _ F Hs S) as (v & Hv & Iv).
  exists v. split; [rewrite result_pol; exact Hv|]. pose proof (V target) as [T _]. rewrite (Ht I rho _ _ G0 G1 H0 H1) in T.
  destruct (fst (aev [SPos] (point_env (ps ++ flat a b)) [] 0 [] target)) as [j [|]|t d|]; try discriminate. cbn [good] in T.
  cbn [times option_map] in Ha. rewrite <- Q2R_plus. exact (apart_ok _ _ _ _ Ha (imul_ok _ _ _ _ (of_Q_ok _) Iv) T).
Qed.
End Gas.
Theorem refute_uniform_x_sound a b ps c : refute_uniform slater a b ps c = true -> misses_limit slater_energy (c_src c).
Proof.
  apply refute_uniform_sound. intros I G r0 r1 G0 G1 H0 H1. unfold slater. cbn [eval].
  rewrite (eval_slater_one I G _ r0 G0 H0), (eval_slater_one I G _ r1 G1 H1). cbn [lift2].
  unfold slater_energy. do 2 f_equal. ring.
Qed.
Theorem refute_uniform_k_sound a b ps c : refute_uniform thomas_fermi a b ps c = true -> misses_limit tf_energy (c_src c).
Proof.
  apply refute_uniform_sound. intros I G r0 r1 G0 G1 H0 H1. unfold thomas_fermi. cbn [eval].
  rewrite (eval_tf I G _ r0 G0 H0), (eval_tf I G _ r1 G1 H1). reflexivity.
Qed.
End Precision.
