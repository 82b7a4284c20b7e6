(** Which names a generated formula reads: a fast check, and what it implies for the calls
    (C31, C32, C34). *)
From Coq Require Import Reals List Bool QArith NArith PArith Arith Lra Lia.
From Verif Require Import Bytes Syntax Parser PostProcess Src Ast Semantics Free Impl ImplThm ImplThm2 ImplThm4 Records
  Families Absint.
Import ListNotations.
Open Scope R_scope.

(** ** A table from numbers to names *)
Inductive table := Leaf | Node (l : table) (v : option bstr) (r : table).
Fixpoint get (k : positive) (t : table) : option bstr :=
  match t, k with
  | Leaf, _ => None
  | Node _ v _, xH => v
  | Node l _ _, xO k => get k l
  | Node _ _ r, xI k => get k r
  end.
Fixpoint put (k : positive) (x : bstr) (t : table) : table :=
  match k, t with
  | xH, Leaf => Node Leaf (Some x) Leaf
  | xH, Node l _ r => Node l (Some x) r
  | xO k, Leaf => Node (put k x Leaf) None Leaf
  | xO k, Node l v r => Node (put k x l) v r
  | xI k, Leaf => Node Leaf None (put k x Leaf)
  | xI k, Node l v r => Node l v (put k x r)
  end.
Lemma get_put k x : forall j t y, get j (put k x t) = Some y -> y = x \/ get j t = Some y.
Proof.
  assert (L : forall j, get j Leaf = None) by (intros []; reflexivity).
  induction k as [k IH|k IH|]; intros [j|j|] [|l v r] y; cbn [get put]; intros H; rewrite ?L in *;
    try discriminate; try (right; exact H); try (apply IH in H; cbn [get] in H; rewrite ?L in H; exact H);
    left; injection H as <-; reflexivity.
Qed.
Definition key (x : bstr) : positive := N.succ_pos (rank x).
Definition known_name (t : table) (x : bstr) : bool := match get (key x) t with Some y => beqb x y | None => false end.

(** ** Every name read before it is assigned satisfies [ok] *)
Section Scope.
Variable ok : bstr -> bool.
Fixpoint scoped (t : table) (e : expr) : bool :=
  match e with
  | ENum _ | EPi => true
  | EVar x => known_name t x || ok x
  | ENeg a | EFn1 _ a => scoped t a
  | EAdd a b | ESub a b | EMul a b | EDiv a b | EPow a b | ECmp _ a b | EOr a b | EAnd a b | EFn2 _ a b => scoped t a && scoped t b
  | ECond a b c | EFn3 _ a b c => scoped t a && scoped t b && scoped t c
  end.
Fixpoint scoped_prog (t : table) (p : program) : bool :=
  match p with
  | [] => known_name t "res"
  | (x, e) :: p => scoped t e && scoped_prog (put (key x) x t) p
  end.
Definition covers (bound : list bstr) (t : table) : Prop := forall k y, get k t = Some y -> In y bound.
Lemma known_bound bound t x : covers bound t -> known_name t x = true -> In x bound.
Proof. unfold known_name. intros H. destruct (get (key x) t) as [y|] eqn:E; [|discriminate]. intros B. apply beqb_eq in B. subst y. exact (H _ _ E). Qed.
Lemma scoped_vars bound t e : covers bound t -> scoped t e = true -> forall x, In x (vars e) -> In x bound \/ ok x = true.
Proof.
  intros C. induction e; cbn [scoped vars]; intros H z Hx;
    repeat match goal with H : _ && _ = true |- _ => apply andb_prop in H; destruct H end;
    rewrite ?in_app_iff in Hx; try (now destruct Hx);
    repeat match goal with H : _ \/ _ |- _ => destruct H end; auto.
  destruct Hx as [<-|[]]. apply orb_prop in H. destruct H as [H|H]; [left; eapply known_bound; eassumption|right; exact H].
Qed.
Lemma scoped_free p : forall bound t, covers bound t -> scoped_prog t p = true -> forall x, In x (free_from bound p) -> ok x = true.
Proof.
  induction p as [|[y e] p IH]; intros bound t C H x Hx; cbn [scoped_prog free_from] in *.
  - apply (known_bound _ _ _ C), mem_In in H. rewrite H in Hx. destruct Hx.
  - apply andb_prop in H. destruct H as [He Hp]. apply in_app_or in Hx. destruct Hx as [Hx|Hx].
    + apply filter_In in Hx. destruct Hx as [Hv Hn]. destruct (scoped_vars _ _ _ C He _ Hv) as [H|H]; [|exact H].
      apply mem_In in H. rewrite H in Hn. discriminate.
    + refine (IH (y :: bound) _ _ Hp x Hx). intros k z Hz. destruct (get_put _ _ _ _ _ Hz) as [->|E]; [left; reflexivity|right; exact (C _ _ E)].
Qed.
End Scope.
Theorem scoped_ok ok p : scoped_prog ok Leaf p = true -> forall x, In x (free p) -> ok x = true.
Proof. intros H. apply (scoped_free ok p [] Leaf); [intros k y E; destruct k; discriminate|exact H]. Qed.

(** ** The inputs of each family *)
Definition names_pol (t : bstr) : list bstr :=
  if beqb t "lda" then ["r0"; "r1"]%b
  else if beqb t "gga" then ["r0"; "r1"; "s0"; "s1"; "s2"]%b
  else ["r0"; "r1"; "s0"; "s1"; "s2"; "l0"; "l1"; "tau0"; "tau1"]%b.
Definition names_unpol (t : bstr) : list bstr :=
  if beqb t "lda" then ["r0"%b] else if beqb t "gga" then ["r0"; "s0"]%b else ["r0"; "s0"; "l0"; "tau0"]%b.
Definition reads_ok (names : list bstr) (p : program) : bool := scoped_prog (fun x => attr_name x || mem x names) Leaf p.
Definition calls_undefined (p : program) : bool := existsb (fun o => mem o undefined_ops) (prog_ops p).
(** The family is the one derived from the functional's name (Records.v). *)
Definition inputs_ok (c : compiled) : bool :=
  match name_to_type (src_name (c_src c)) with
  | Ok t => reads_ok (names_pol t) (c_pol c) && reads_ok (names_unpol t) (c_unpol c)
  | Err _ => false
  end.

(** ** No exception *)
(** [p] has every attribute the formula reads. *)
Definition has_attrs (A : attrs) (src : list bstr) : Prop :=
  forall prog x, generated src = Some prog -> In x (free prog) -> attr_name x = true -> A x <> None.
Definition formula_text (p : func_p) (f : source) : list bstr := if (fp_nspin p =? 2)%nat then src_pol f else src_unpol f.
Definition raises_nothing (f : source) : Prop :=
  forall I impl p d rho mo, single impl p f -> name_to_type (src_name f) = Ok (fp_type p) -> nspin_ok p ->
  has_attrs (attrs_of p) (formula_text p f) -> well_formed p rho mo ->
  exists v, epsilon_xc I impl p d rho mo = Ok v.
Definition always_name_error (f : source) : Prop :=
  forall I impl p d rho mo, single impl p f -> family (fp_type p) -> nspin_ok p -> well_formed p rho mo ->
  epsilon_xc I impl p d rho mo = Err NameError.

Lemma first_missing_none e l : (forall x, In x l -> e x <> None) -> first_missing e l = None.
Proof.
  induction l as [|x l IH]; cbn [first_missing]; intros H; [reflexivity|]. unfold missing.
  destruct (e x) eqn:E; [apply IH; intros y Hy; apply H; right; exact Hy|]. exfalso. apply (H x); [left; reflexivity|exact E].
Qed.
Lemma attr_arg A l x : attr_name x = true -> forallb (fun p : bstr * option R => negb (attr_name (fst p))) l = true ->
  bind_args l (attr_env A) x = opt_val (A x).
Proof.
  intros Hx. induction l as [|[y o] l IH]; cbn [bind_args forallb fst]; intros H.
  - unfold attr_env. rewrite Hx. reflexivity.
  - apply andb_prop in H. destruct H as [H1 H2]. apply negb_true_iff in H1. unfold upd.
    destruct (beqb x y) eqn:E; [apply beqb_eq in E; subst; congruence|apply IH, H2].
Qed.

Lemma name_family n t : name_to_type n = Ok t -> family t.
Proof.
  unfold name_to_type, family. intros H.
  repeat match type of H with (if ?b then _ else _) = _ => destruct b; [injection H as <-; auto|] end. discriminate.
Qed.

Lemma expected_pol_env p d rho mo A t : fp_type p = t -> family t -> nspin_ok p -> (fp_nspin p =? 2)%nat = true -> well_formed p rho mo ->
  forall x, mem x (names_pol t) = true -> pol_env A (to_pol (expected_args p d rho mo None)) x <> None.
Proof.
  intros Ht Hf Hn H2 W x Hx. apply Nat.eqb_eq in H2. destruct W as (_ & W2 & W3). specialize (W2 H2).
  unfold expected_args. rewrite H2. cbn [Nat.eqb].
  destruct Hf as [-> | [-> | ->]].
  - rewrite (proj2 (is_type_eq p "lda") Ht). unfold spin_of. rewrite W2.
    apply mem_In in Hx. repeat (destruct Hx as [<-|Hx]; [discriminate|]). destruct Hx.
  - assert (E : is_type p "lda" = false) by (apply is_type_neq; rewrite Ht; discriminate). rewrite E, (proj2 (is_type_eq p "gga") Ht). unfold spin_of. rewrite W2.
    apply mem_In in Hx. repeat (destruct Hx as [<-|Hx]; [discriminate|]). destruct Hx.
  - assert (E : is_type p "lda" = false) by (apply is_type_neq; rewrite Ht; discriminate).
    assert (E2 : is_type p "gga" = false) by (apply is_type_neq; rewrite Ht; discriminate). rewrite E, E2. unfold spin_of. rewrite W2.
    destruct (W3 Ht) as (m & -> & _ & K). destruct (K H2) as (N & HN). unfold kinetic. rewrite HN.
    apply mem_In in Hx. repeat (destruct Hx as [<-|Hx]; [discriminate|]). destruct Hx.
Qed.
Lemma expected_unpol_env p d rho mo A t : fp_type p = t -> family t -> (fp_nspin p =? 2)%nat = false -> nspin_ok p -> well_formed p rho mo ->
  forall x, mem x (names_unpol t) = true -> unpol_env A (to_unpol (expected_args p d rho mo None)) x <> None.
Proof.
  intros Ht Hf H2 Hn W x Hx. assert (H1 : fp_nspin p = 1%nat) by (destruct Hn as [E|E]; [exact E|rewrite E in H2; discriminate]).
  destruct W as (W1 & _ & W3). specialize (W1 H1). unfold expected_args. rewrite H1. cbn [Nat.eqb].
  destruct Hf as [-> | [-> | ->]].
  - rewrite (proj2 (is_type_eq p "lda") Ht). unfold spin_of. rewrite W1.
    apply mem_In in Hx. repeat (destruct Hx as [<-|Hx]; [discriminate|]). destruct Hx.
  - assert (E : is_type p "lda" = false) by (apply is_type_neq; rewrite Ht; discriminate). rewrite E, (proj2 (is_type_eq p "gga") Ht). unfold spin_of. rewrite W1.
    apply mem_In in Hx. repeat (destruct Hx as [<-|Hx]; [discriminate|]). destruct Hx.
  - assert (E : is_type p "lda" = false) by (apply is_type_neq; rewrite Ht; discriminate).
    assert (E2 : is_type p "gga" = false) by (apply is_type_neq; rewrite Ht; discriminate). rewrite E, E2. unfold spin_of. rewrite W1.
    destruct (W3 Ht) as (m & -> & K & _). destruct (K H1) as (N & HN). unfold kinetic. rewrite HN.
    apply mem_In in Hx. repeat (destruct Hx as [<-|Hx]; [discriminate|]). destruct Hx.
Qed.

(** What the generated code does on the arguments of its family. *)
Definition formula_value (I : interp) (p : func_p) (f : source) (a : fargs) : option R :=
  if (fp_nspin p =? 2)%nat then pol f I (attrs_of p) (to_pol a) else unpol f I (attrs_of p) (to_unpol a).
Lemma call_ok c I p d rho mo : inputs_ok c = true -> calls_undefined (c_pol c) = false -> calls_undefined (c_unpol c) = false ->
  name_to_type (src_name (c_src c)) = Ok (fp_type p) -> nspin_ok p -> has_attrs (attrs_of p) (formula_text p (c_src c)) -> well_formed p rho mo ->
  call_code I (c_src c) p (expected_args p d rho mo None) = Ok (formula_value I p (c_src c) (expected_args p d rho mo None)).
Proof.
  intros H Up Uu Ht Hn HA W. unfold inputs_ok in H. rewrite Ht in H. apply andb_prop in H. destruct H as [Rp Ru].
  pose proof (name_family _ _ Ht) as Hf. unfold call_code, formula_value, formula_text in *.
  destruct (fp_nspin p =? 2)%nat eqn:E2.
  - assert (D : exists x y, fa_dens (expected_args p d rho mo None) = SPol x y).
    { rewrite dens_expected. unfold spin_of. rewrite (proj1 (proj2 W)) by (apply Nat.eqb_eq, E2). eauto. }
    destruct D as (x & y & ->). unfold run_code, pol, run_text. rewrite (c_pol_ok c).
    fold (calls_undefined (c_pol c)). rewrite Up, first_missing_none; [reflexivity|].
    intros z Hz. pose proof (scoped_ok _ _ Rp z Hz) as O. cbn beta in O. destruct (attr_name z) eqn:Ea.
    + unfold pol_env. rewrite attr_arg by (exact Ea || reflexivity). pose proof (HA _ z (c_pol_ok c) Hz Ea) as N. destruct (attrs_of p z); [discriminate|congruence].
    + apply (expected_pol_env p d rho mo _ _ eq_refl Hf Hn E2 W). exact O.
  - assert (D : exists x, fa_dens (expected_args p d rho mo None) = SUnpol x).
    { rewrite dens_expected. unfold spin_of. rewrite (proj1 W) by (destruct Hn as [E|E]; [exact E|rewrite E in E2; discriminate]). eauto. }
    destruct D as (x & ->). unfold run_code, unpol, run_text. rewrite (c_unpol_ok c).
    fold (calls_undefined (c_unpol c)). rewrite Uu, first_missing_none; [reflexivity|].
    intros z Hz. pose proof (scoped_ok _ _ Ru z Hz) as O. cbn beta in O. destruct (attr_name z) eqn:Ea.
    + unfold unpol_env. rewrite attr_arg by (exact Ea || reflexivity). pose proof (HA _ z (c_unpol_ok c) Hz Ea) as N. destruct (attrs_of p z); [discriminate|congruence].
    + apply (expected_unpol_env p d rho mo _ _ eq_refl Hf E2 Hn W). exact O.
Qed.

(** The callable of a single functional, on well-formed inputs. *)
Definition total_at (p : func_p) (rho : field R) : R :=
  if (fp_nspin p =? 2)%nat then f_val rho [0%nat] + f_val rho [1%nat] else f_val rho [].
Theorem epsilon_ok c I impl p d rho mo : inputs_ok c = true -> calls_undefined (c_pol c) = false -> calls_undefined (c_unpol c) = false ->
  single impl p (c_src c) -> name_to_type (src_name (c_src c)) = Ok (fp_type p) -> nspin_ok p ->
  has_attrs (attrs_of p) (formula_text p (c_src c)) -> well_formed p rho mo ->
  epsilon_xc I impl p d rho mo =
    Ok (if Rlt_dec (total_at p rho) (dens_threshold (fp_scal p)) then Some 0
        else formula_value I p (c_src c) (expected_args p d rho mo None)).
Proof.
  intros H1 H2 H3 Hs Ht Hn HA W. pose proof (name_family _ _ Ht) as Hf.
  pose proof (call_ok c I p d rho mo H1 H2 H3 Ht Hn HA W) as C.
  pose proof (args_ok p d rho mo None Hf Hn W) as A.
  destruct (screening_top I impl p (c_src c) d rho mo _ _ Hs Hf Hn A C (total_at p rho)) as [L G].
  - intros E. unfold total_at. rewrite E. reflexivity.
  - intros E. unfold total_at. rewrite E. reflexivity.
  - destruct (Rlt_dec (total_at p rho) (dens_threshold (fp_scal p))) as [D|D]; [apply L, D|apply G; lra].
Qed.
Theorem raises_nothing_sound c : inputs_ok c && negb (calls_undefined (c_pol c)) && negb (calls_undefined (c_unpol c)) = true ->
  raises_nothing (c_src c).
Proof.
  intros H. apply andb_prop in H. destruct H as [H H3]. apply andb_prop in H. destruct H as [H1 H2].
  apply negb_true_iff in H2, H3. intros I impl p d rho mo Hs Ht Hn HA W.
  eexists. exact (epsilon_ok c I impl p d rho mo H1 H2 H3 Hs Ht Hn HA W).
Qed.
Theorem name_error_sound c : calls_undefined (c_pol c) && calls_undefined (c_unpol c) = true -> always_name_error (c_src c).
Proof.
  intros H I impl p d rho mo Hs Hf Hn W. apply andb_prop in H. destruct H as [Up Uu].
  rewrite (epsilon_single I impl p (c_src c) d rho mo Hs). unfold impl_invoke.
  rewrite (args_ok p d rho mo None Hf Hn W). cbn [rbind].
  assert (E : call_code I (c_src c) p (expected_args p d rho mo None) = Err NameError); [|rewrite E; reflexivity].
  unfold call_code. rewrite dens_expected. unfold spin_of.
  destruct (fp_nspin p =? 2)%nat eqn:E2.
  - rewrite (proj1 (proj2 W)) by (apply Nat.eqb_eq, E2). unfold run_code. rewrite (c_pol_ok c). fold (calls_undefined (c_pol c)). rewrite Up. reflexivity.
  - rewrite (proj1 W) by (destruct Hn as [E|E]; [exact E|rewrite E in E2; discriminate]).
    unfold run_code. rewrite (c_unpol_ok c). fold (calls_undefined (c_unpol c)). rewrite Uu. reflexivity.
Qed.

(** ** C32: independence of the mixed gradient product *)
Definition with_s1 (a : pol_args) (s : option R) : pol_args := {|
  p_r0 := p_r0 a; p_r1 := p_r1 a; p_s0 := p_s0 a; p_s1 := s; p_s2 := p_s2 a;
  p_l0 := p_l0 a; p_l1 := p_l1 a; p_tau0 := p_tau0 a; p_tau1 := p_tau1 a |}.
Definition ignores_s1 (f : source) : Prop := forall I A a s, pol f I A (with_s1 a s) = pol f I A a.
Definition no_s1 (c : compiled) : bool := scoped_prog (fun x => negb (beqb x "s1")) Leaf (c_pol c).
Theorem ignores_s1_sound c : no_s1 c = true -> ignores_s1 (c_src c).
Proof.
  intros H I A a s. rewrite !result_pol. apply result_free. intros x Hx.
  pose proof (scoped_ok _ _ H x Hx) as O. cbn beta in O. apply negb_true_iff in O.
  unfold pol_env. cbn [bind_args with_s1 p_r0 p_r1 p_s0 p_s1 p_s2 p_l0 p_l1 p_tau0 p_tau1]. unfold upd.
  rewrite O. reflexivity.
Qed.
