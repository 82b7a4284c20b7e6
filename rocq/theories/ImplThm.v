(** Facts about the evaluation path of Impl.v. *)
From Coq Require Import Reals List Bool QArith Arith Lra Lia.
From Verif Require Import Bytes Syntax Parser PostProcess Src Semantics Free Vec Impl.
Import ListNotations.
Open Scope R_scope.

(** Induction on functional records. *)
Section Ind.
Variable P : func_p -> Prop.
Hypothesis H : forall name ty ns mp sc pa aux mix,
  (forall ps, aux = Some ps -> Forall P ps) -> P (FuncP name ty ns mp sc pa aux mix).
Fixpoint func_p_ind' (p : func_p) : P p :=
  match p with
  | FuncP name ty ns mp sc pa aux mix =>
      H name ty ns mp sc pa aux mix
        (match aux with
         | None => fun ps E => match E in _ = o return match o with None => True | Some ps => Forall P ps end with eq_refl => Logic.I end
         | Some l => fun ps E =>
             match E in _ = o return match o with None => True | Some ps => Forall P ps end with
             | eq_refl => (fix go (l : list func_p) : Forall P l :=
                 match l with [] => Forall_nil _ | q :: l => Forall_cons _ (func_p_ind' q) (go l) end) l
             end
         end)
  end.
End Ind.

(** ** C16: rejection of malformed inputs *)
Definition family (t : bstr) : Prop := t = "lda"%b \/ t = "gga"%b \/ t = "mgga"%b.
Definition nspin_ok (p : func_p) : Prop := fp_nspin p = 1%nat \/ fp_nspin p = 2%nat.

(** The density has shape () or (2,) and the one that fits the spin mode; a meta-GGA has
    orbitals of shape (N,) or (2, N) according to the spin mode. *)
Definition well_formed (p : func_p) (rho : field R) (mo : option (field complex)) : Prop :=
  (fp_nspin p = 1%nat -> f_shape rho = []) /\
  (fp_nspin p = 2%nat -> f_shape rho = [2%nat]) /\
  (fp_type p = "mgga"%b -> exists m, mo = Some m /\
     (fp_nspin p = 1%nat -> exists N, f_shape m = [N]) /\
     (fp_nspin p = 2%nat -> exists N, f_shape m = [2%nat; N])).

Lemma is_type_eq p t : is_type p t = true <-> fp_type p = t.
Proof. apply beqb_eq. Qed.
Lemma is_type_neq p t : is_type p t = false <-> fp_type p <> t.
Proof. rewrite <- is_type_eq. destruct (is_type p t); split; congruence. Qed.
Lemma list_eq_true (l m : list nat) A (x y : A) : l = m -> (if list_eq_dec Nat.eq_dec l m then x else y) = x.
Proof. intros H. destruct (list_eq_dec Nat.eq_dec l m); [reflexivity|contradiction]. Qed.
Lemma list_eq_false (l m : list nat) A (x y : A) : l <> m -> (if list_eq_dec Nat.eq_dec l m then x else y) = y.
Proof. intros H. destruct (list_eq_dec Nat.eq_dec l m); [contradiction|reflexivity]. Qed.

Lemma check_mo_ok d m :
  (check_mo d true m = Ok tt <-> exists N, f_shape m = [2%nat; N]) /\
  (check_mo d false m = Ok tt <-> exists N, f_shape m = [N]).
Proof.
  unfold check_mo. split.
  - destruct (f_shape m) as [|a [|b l]]; cbn [app nth_error].
    + split; [discriminate|intros [N HN]; discriminate].
    + split; [|intros [N HN]; discriminate].
      rewrite list_eq_false by discriminate. discriminate.
    + split.
      * destruct (list_eq_dec Nat.eq_dec (a :: b :: l ++ [d]) [2%nat; b; d]) as [E|E]; [|discriminate].
        intros _. injection E as -> E. exists b. destruct l as [|c l]; [reflexivity|].
        exfalso. apply (f_equal (@length nat)) in E. cbn in E. rewrite app_length in E. cbn in E. lia.
      * intros [N HN]. injection HN as -> -> ->. rewrite list_eq_true by reflexivity. reflexivity.
  - destruct (f_shape m) as [|a l]; cbn [app nth_error].
    + split; [|intros [N HN]; discriminate]. rewrite list_eq_false by discriminate. discriminate.
    + split.
      * destruct (list_eq_dec Nat.eq_dec (a :: l ++ [d]) [a; d]) as [E|E]; [|discriminate].
        intros _. injection E as E. exists a. destruct l as [|c l]; [reflexivity|].
        exfalso. apply (f_equal (@length nat)) in E. cbn in E. rewrite app_length in E. cbn in E. lia.
      * intros [N HN]. injection HN as -> ->. rewrite list_eq_true by reflexivity. reflexivity.
Qed.

Definition spin_of (rho : field R) : spinval :=
  match f_shape rho with [] => SUnpol (f_val rho []) | _ => SPol (f_val rho [0%nat]) (f_val rho [1%nat]) end.

(** What [rho_to_arguments] returns on well-formed input. *)
Definition expected_args (p : func_p) (d : nat) (rho : field R) (mo : option (field complex)) (deo : option R) : fargs :=
  let pol := (fp_nspin p =? 2)%nat in
  if is_type p "lda" then ALda (spin_of rho)
  else if is_type p "gga" then AGga (spin_of rho) (grad_products d pol rho)
  else AMgga (spin_of rho) (grad_products d pol rho) (laplacian d pol rho)
         match deo, mo with
         | Some x, _ => sv_scale x (spin_of rho)
         | None, Some m => kinetic d pol m
         | None, None => spin_of rho
         end.

Lemma args_ok p d rho mo deo : family (fp_type p) -> nspin_ok p -> well_formed p rho mo ->
  rho_to_arguments p d rho mo deo = Ok (expected_args p d rho mo deo).
Proof.
  intros Hf Hn (W1 & W2 & W3). unfold rho_to_arguments, expected_args, spin_of.
  assert (Hpol : forall m, fp_type p = "mgga"%b -> mo = Some m -> check_mo d (fp_nspin p =? 2) m = Ok tt).
  { intros m Ht Hm. destruct (W3 Ht) as (m' & Hm' & A & B). rewrite Hm in Hm'. injection Hm' as <-.
    destruct Hn as [Hn|Hn]; rewrite Hn; cbn; apply check_mo_ok; auto. }
  destruct Hf as [Hf|[Hf|Hf]].
  - assert (E : is_type p "lda" = true) by (apply is_type_eq, Hf). rewrite E.
    assert (E2 : is_type p "mgga" = false) by (apply is_type_neq; rewrite Hf; discriminate). rewrite E2.
    cbn [orb negb rbind]. destruct Hn as [Hn|Hn]; rewrite Hn; [rewrite (W1 Hn)|rewrite (W2 Hn)]; reflexivity.
  - assert (E : is_type p "lda" = false) by (apply is_type_neq; rewrite Hf; discriminate). rewrite E.
    assert (E2 : is_type p "mgga" = false) by (apply is_type_neq; rewrite Hf; discriminate). rewrite E2.
    assert (E3 : is_type p "gga" = true) by (apply is_type_eq, Hf). rewrite E3.
    cbn [orb negb rbind]. destruct Hn as [Hn|Hn]; rewrite Hn; [rewrite (W1 Hn)|rewrite (W2 Hn)]; reflexivity.
  - assert (E : is_type p "lda" = false) by (apply is_type_neq; rewrite Hf; discriminate). rewrite E.
    assert (E2 : is_type p "mgga" = true) by (apply is_type_eq, Hf). rewrite E2.
    assert (E3 : is_type p "gga" = false) by (apply is_type_neq; rewrite Hf; discriminate). rewrite E3.
    destruct (W3 Hf) as (m & -> & _). specialize (Hpol m Hf eq_refl).
    cbn [orb negb rbind]. destruct Hn as [Hn|Hn]; rewrite Hn in Hpol |- *; [rewrite (W1 Hn)|rewrite (W2 Hn)]; cbn [rbind Nat.eqb andb orb negb] in *;
      rewrite Hpol; cbn [rbind]; destruct deo; reflexivity.
Qed.

Lemma args_reject p d rho mo deo a : family (fp_type p) -> nspin_ok p ->
  rho_to_arguments p d rho mo deo = Ok a -> well_formed p rho mo.
Proof.
  intros Hf Hn. unfold rho_to_arguments, well_formed.
  destruct (negb _); [discriminate|].
  destruct (is_type p "mgga") eqn:Em.
  - destruct mo as [m|]; cbn [rbind]; [|discriminate].
    assert (E : is_type p "lda" = false) by (apply is_type_neq; apply is_type_eq in Em; rewrite Em; discriminate). rewrite E.
    assert (E3 : is_type p "gga" = false) by (apply is_type_neq; apply is_type_eq in Em; rewrite Em; discriminate). rewrite E3.
    destruct (f_shape rho) as [|a0 l] eqn:Es.
    + cbn [rbind]. destruct Hn as [Hn|Hn]; rewrite Hn; cbn [Nat.eqb andb orb negb]; [|discriminate].
      destruct (check_mo d false m) as [[]|] eqn:Ec; cbn [rbind]; [|discriminate]. intros _.
      split; [reflexivity|split; [discriminate|]]. intros _. exists m. split; [reflexivity|].
      split; [intros _; apply (check_mo_ok d m), Ec|discriminate].
    + destruct a0 as [|[|[|a0]]]; try discriminate. destruct l; [|discriminate]. cbn [rbind].
      destruct Hn as [Hn|Hn]; rewrite Hn; cbn [Nat.eqb andb orb negb]; [discriminate|].
      destruct (check_mo d true m) as [[]|] eqn:Ec; cbn [rbind]; [|discriminate]. intros _.
      split; [discriminate|split; [reflexivity|]]. intros _. exists m. split; [reflexivity|].
      split; [discriminate|intros _; apply (check_mo_ok d m), Ec].
  - cbn [rbind]. intros H. apply is_type_neq in Em.
    destruct (f_shape rho) as [|a0 l] eqn:Es.
    + cbn [rbind] in H. destruct Hn as [Hn|Hn]; rewrite Hn in *; cbn [Nat.eqb andb orb negb] in H; [|discriminate].
      split; [reflexivity|split; [discriminate|]]. intros E. contradiction.
    + destruct a0 as [|[|[|a0]]]; try discriminate. destruct l; [|discriminate]. cbn [rbind] in H.
      destruct Hn as [Hn|Hn]; rewrite Hn in *; cbn [Nat.eqb andb orb negb] in H; [discriminate|].
      split; [discriminate|split; [reflexivity|]]. intros E. contradiction.
Qed.

(** Evaluation is rejected exactly when the input is malformed. *)
Theorem rejection p d rho mo deo : family (fp_type p) -> nspin_ok p ->
  (exists e, rho_to_arguments p d rho mo deo = Err e) <-> ~ well_formed p rho mo.
Proof.
  intros Hf Hn. split.
  - intros [e He] W. rewrite (args_ok p d rho mo deo Hf Hn W) in He. discriminate.
  - intros W. destruct (rho_to_arguments p d rho mo deo) as [a|e] eqn:E; [|eauto].
    exfalso. apply W. exact (args_reject p d rho mo deo a Hf Hn E).
Qed.

(** ** C07: small-density screening *)
Definition total_density (p : func_p) (rho : field R) : R :=
  if (fp_nspin p =? 2)%nat then f_val rho [0%nat] + f_val rho [1%nat] else f_val rho [].

Lemma total_spin_of p rho mo : nspin_ok p -> well_formed p rho mo ->
  total (fp_nspin p) (spin_of rho) = total_density p rho.
Proof.
  intros Hn (W1 & W2 & _). unfold total, total_density, spin_of. destruct Hn as [Hn|Hn]; rewrite Hn.
  - rewrite (W1 Hn). reflexivity.
  - rewrite (W2 Hn). cbn. lra.
Qed.
Lemma dens_expected p d rho mo deo : fa_dens (expected_args p d rho mo deo) = spin_of rho.
Proof. unfold expected_args. destruct (is_type p "lda"); [|destruct (is_type p "gga")]; reflexivity. Qed.

Lemma impl_invoke_eq I f p d rho mo deo : family (fp_type p) -> nspin_ok p -> well_formed p rho mo ->
  impl_invoke I f p d rho mo deo =
  (v <- call_code I f p (expected_args p d rho mo deo);;
   Ok (if Rlt_dec (total_density p rho) (dens_threshold (fp_scal p)) then Some 0 else v)).
Proof.
  intros Hf Hn W. unfold impl_invoke. rewrite (args_ok p d rho mo deo Hf Hn W). cbn [rbind].
  rewrite dens_expected, (total_spin_of p rho mo Hn W). reflexivity.
Qed.

Theorem screening I f p d rho mo deo v : family (fp_type p) -> nspin_ok p -> well_formed p rho mo ->
  call_code I f p (expected_args p d rho mo deo) = Ok v ->
  (total_density p rho < dens_threshold (fp_scal p) -> impl_invoke I f p d rho mo deo = Ok (Some 0)) /\
  (dens_threshold (fp_scal p) <= total_density p rho -> impl_invoke I f p d rho mo deo = Ok v).
Proof.
  intros Hf Hn W Hv. rewrite (impl_invoke_eq I f p d rho mo deo Hf Hn W), Hv. cbn [rbind].
  destruct (Rlt_dec (total_density p rho) (dens_threshold (fp_scal p))); split; intros; try lra; reflexivity.
Qed.

(** ** C11: mixtures *)

(** The single functionals of a tree with their accumulated weights, in libxc's order. *)
Fixpoint leaves (w : R) (p : func_p) {struct p} : list (R * func_p) :=
  match p with
  | FuncP _ _ _ maple _ _ aux mix =>
      if beqb maple "" then
        match aux, mix with
        | Some ps, Some cs =>
            (fix go (ps : list func_p) (cs : list R) : list (R * func_p) :=
               match ps, cs with q :: ps, c :: cs => leaves (w * c) q ++ go ps cs | _, _ => [] end) ps cs
        | _, _ => []
        end
      else [(w, p)]
  end.
(** Every mixture of the tree has its components and as many coefficients. *)
Fixpoint tree_ok (p : func_p) {struct p} : Prop :=
  match p with
  | FuncP _ _ _ maple _ _ aux mix =>
      if beqb maple "" then
        match aux, mix with
        | Some ps, Some cs => length ps = length cs /\
            (fix go (ps : list func_p) : Prop := match ps with q :: ps => tree_ok q /\ go ps | [] => True end) ps
        | _, _ => False
        end
      else True
  end.

Definition leaf_value (I : interp) (impl : modules) (d : nat) (rho : field R) (mo : option (field complex)) (p : func_p) : res (option R) :=
  if beqb (fp_maple p) DEORBITALIZE then Err TypeError
  else match impl (fp_maple p) with None => Err AttributeError | Some f => impl_invoke I f p d rho mo None end.

Lemma py_sum_acc l : forall a, fold_left oadd l (Some a) =
  match fold_left oadd l (Some 0) with Some s => Some (a + s) | None => None end.
Proof.
  assert (Hn : forall l, fold_left oadd l None = None) by (induction l0; [reflexivity|exact IHl0]).
  induction l as [|[x|] l IH]; intros a; cbn [fold_left oadd].
  - f_equal. lra.
  - rewrite IH. rewrite (IH (0 + x)). destruct (fold_left oadd l (Some 0)); [f_equal; lra|reflexivity].
  - rewrite Hn. reflexivity.
Qed.
Lemma py_sum_cons x l : py_sum (x :: l) = oadd x (py_sum l).
Proof.
  unfold py_sum. cbn [fold_left]. destruct x as [x|]; cbn [oadd].
  - rewrite py_sum_acc. destruct (fold_left oadd l (Some 0)); [f_equal; lra|reflexivity].
  - induction l as [|y l IH]; [reflexivity|exact IH].
Qed.

(** The weighted sum of the leaves. *)
Fixpoint wsum (val : func_p -> R) (l : list (R * func_p)) : R :=
  match l with [] => 0 | (w, q) :: l => w * val q + wsum val l end.
Lemma wsum_app val l m : wsum val (l ++ m) = wsum val l + wsum val m.
Proof. induction l as [|[w q] l IH]; simpl; [lra|]. rewrite IH. lra. Qed.

Theorem mixture_sum I impl d rho mo (val : func_p -> R) : forall p w, tree_ok p ->
  (forall w' q, In (w', q) (leaves w p) -> leaf_value I impl d rho mo q = Ok (Some (val q))) ->
  exists v, invoke I impl d rho mo p = Ok (Some v) /\ w * v = wsum val (leaves w p).
Proof.
  induction p as [name ty ns mp sc pa aux mix IH] using func_p_ind'. intros w Ht Hl.
  cbn [invoke leaves tree_ok] in *.
  destruct (beqb mp DEORBITALIZE) eqn:Ed.
  { apply beqb_eq in Ed. subst mp. cbn in Hl. specialize (Hl w _ (or_introl eq_refl)). discriminate. }
  destruct (beqb mp "") eqn:Em.
  - destruct aux as [ps|]; [|contradiction]. destruct mix as [cs|]; [|contradiction].
    destruct Ht as [Hlen Ht]. specialize (IH ps eq_refl).
    match goal with |- context [rbind (?g ps cs) _] => set (go := g) end.
    match type of Hl with context [In _ (?g ps cs)] => set (lv := g) in * end.
    assert (G : exists vs v, go ps cs = Ok vs /\ py_sum vs = Some v /\ w * v = wsum val (lv ps cs)).
    { clear Em Ed. revert cs Hlen Ht Hl IH. induction ps as [|q ps IHps]; intros [|c cs] Hlen Ht Hl IH; try discriminate.
      - exists [], 0. cbn. repeat split. lra.
      - destruct Ht as [Hq Ht]. inversion IH as [|? ? IHq IH']; subst.
        destruct (IHq (w * c) Hq) as (vq & Evq & Hvq).
        { intros w' q' Hin. apply (Hl w' q'). cbn. apply in_or_app. left. exact Hin. }
        destruct (IHps cs) as (vs & v & Evs & Esum & Hv); try assumption.
        { cbn in Hlen. lia. }
        { intros w' q' Hin. apply (Hl w' q'). cbn. apply in_or_app. right. exact Hin. }
        exists (oscale c (Some vq) :: vs), (c * vq + v). repeat split.
        + cbn. rewrite Evq. cbn [rbind]. fold go. rewrite Evs. reflexivity.
        + rewrite py_sum_cons, Esum. reflexivity.
        + cbn. fold lv. rewrite wsum_app, <- Hvq, <- Hv. lra. }
    destruct G as (vs & v & E & Es & Hv). exists v. rewrite E. cbn [rbind]. rewrite Es. auto.
  - specialize (Hl w _ (or_introl eq_refl)). unfold leaf_value in Hl. cbn [fp_maple] in Hl. rewrite Ed in Hl.
    destruct (impl mp) as [f|]; [|discriminate]. exists (val (FuncP name ty ns mp sc pa aux mix)).
    split; [exact Hl|]. cbn. lra.
Qed.

(** ** C30: meta-GGA components below a functional of another family *)
Lemma mgga_needs_mo I f p d rho deo : is_type p "mgga" = true -> impl_invoke I f p d rho None deo = Err ValueError.
Proof.
  intros H. unfold impl_invoke, rho_to_arguments. rewrite H.
  destruct (negb _); reflexivity.
Qed.
(** Without orbitals a tree with a meta-GGA leaf cannot be evaluated. *)
Theorem mgga_leaf_rejected I impl d rho : forall p w w' q, In (w', q) (leaves w p) -> is_type q "mgga" = true ->
  forall v, invoke I impl d rho None p <> Ok v.
Proof.
  induction p as [name ty ns mp sc pa aux mix IH] using func_p_ind'. intros w w' q Hin Hq v Hv.
  cbn [invoke leaves] in *. destruct (beqb mp DEORBITALIZE) eqn:Ed.
  { destruct aux as [[|p0 [|p1 l]]|]; try discriminate. destruct (invoke I impl d rho None p1); discriminate. }
  destruct (beqb mp "") eqn:Em.
  - destruct aux as [ps|]; [|contradiction]. destruct mix as [cs|]; [|contradiction]. specialize (IH ps eq_refl).
    match type of Hv with context [rbind (?g ps cs) _] => set (go := g) in * end.
    match type of Hin with In _ (?g ps cs) => set (lv := g) in * end.
    assert (G : forall vs, go ps cs <> Ok vs).
    { clear Hv Em Ed v. revert cs Hin. induction ps as [|p ps IHps]; intros [|c cs] Hin vs Hvs; cbn in Hin; try contradiction.
      inversion IH as [|? ? IHp IH']; subst. cbn in Hvs. fold go in Hvs.
      destruct (invoke I impl d rho None p) as [x|] eqn:Ex; cbn [rbind] in Hvs; [|discriminate].
      destruct (go ps cs) as [xs|] eqn:Exs; cbn [rbind] in Hvs; [|discriminate].
      apply in_app_or in Hin. destruct Hin as [Hin|Hin].
      - exact (IHp _ _ _ Hin Hq x eq_refl).
      - exact (IHps IH' cs Hin xs Exs). }
    destruct (go ps cs) as [xs|] eqn:E; [exact (G xs eq_refl)|discriminate].
  - destruct Hin as [Hin|[]]. injection Hin as <- <-. destruct (impl mp) as [f|]; [|discriminate].
    rewrite mgga_needs_mo in Hv by exact Hq. discriminate.
Qed.
Theorem mixture_never_gets_orbitals I impl p d rho mo w q : fp_type p <> "mgga"%b ->
  In (w, q) (leaves 1 p) -> fp_type q = "mgga"%b -> forall v, epsilon_xc I impl p d rho mo <> Ok v.
Proof.
  intros Hp Hin Hq v. unfold epsilon_xc. rewrite (proj2 (is_type_neq p "mgga") Hp).
  apply (mgga_leaf_rejected I impl d rho p 1 w q Hin). apply is_type_eq, Hq.
Qed.

(** ** C12: deorbitalized functionals *)
Theorem deorbitalize_fails I impl d rho mo p : fp_maple p = DEORBITALIZE ->
  exists e, invoke I impl d rho mo p = Err e.
Proof.
  destruct p as [name ty ns mp sc pa aux mix]. cbn [fp_maple invoke]. intros ->.
  change (beqb DEORBITALIZE DEORBITALIZE) with true. cbn.
  destruct aux as [[|p0 [|p1 l]]|]; try (eexists; reflexivity).
  destruct (invoke I impl d rho mo p1); eexists; reflexivity.
Qed.
