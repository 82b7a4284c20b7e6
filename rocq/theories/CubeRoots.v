(** Replacing a power with exponent one third by a call of cbrt, in the tokens of a line. *)
From Coq Require Import Strings.Byte List Bool NArith ZArith QArith Lia PeanoNat.
From Verif Require Import Bytes Syntax Parser ParserThm.
Import ListNotations.

(** ** What a parse reads is balanced *)
(** Nesting depth after reading [ts] from depth [d]; [None] when it goes below zero. *)
Fixpoint depth (d : nat) (ts : list tok) : option nat :=
  match ts with
  | [] => Some d
  | TLp :: ts => depth (S d) ts
  | TRp :: ts => match d with O => None | S d => depth d ts end
  | _ :: ts => depth d ts
  end.
Definition balanced_toks (ts : list tok) : Prop := depth 0 ts = Some 0%nat.
Lemma depth_app a : forall d b, depth d (a ++ b) = match depth d a with Some d' => depth d' b | None => None end.
Proof. induction a as [|t a IH]; intros d b; [reflexivity|]. destruct t; cbn [app depth]; auto. destruct d; auto. Qed.
Lemma depth_plus a : forall d d' k, depth d a = Some d' -> depth (d + k) a = Some (d' + k)%nat.
Proof.
  induction a as [|t a IH]; intros d d' k H; [injection H as <-; reflexivity|]. destruct t; cbn [depth] in *; auto.
  - apply (IH (S d)), H.
  - destruct d; [discriminate|]. cbn. apply IH, H.
Qed.
Lemma bal_nil : balanced_toks []. Proof. reflexivity. Qed.
Lemma bal_app a b : balanced_toks a -> balanced_toks b -> balanced_toks (a ++ b).
Proof. unfold balanced_toks. intros A B. rewrite depth_app, A. exact B. Qed.
Lemma bal_paren a : balanced_toks a -> balanced_toks (TLp :: a ++ [TRp]).
Proof. unfold balanced_toks. intros A. cbn [depth]. rewrite depth_app. pose proof (depth_plus a 0 0 1 A) as H. cbn in H. rewrite H. reflexivity. Qed.
Definition flat (t : tok) : bool := match t with TLp | TRp => false | _ => true end.
Lemma bal_cons t a : flat t = true -> balanced_toks a -> balanced_toks (t :: a).
Proof. unfold balanced_toks. destruct t; try discriminate; intros _ A; exact A. Qed.
(** Two balanced texts before a closing parenthesis have the same length. *)
Lemma bal_unique a b r s : balanced_toks a -> balanced_toks b -> a ++ TRp :: r = b ++ TRp :: s -> a = b /\ r = s.
Proof.
  intros A B E. unfold balanced_toks in *.
  assert (X : exists c, a = b ++ c \/ b = a ++ c).
  { clear - E. revert b E. induction a as [|t a IH]; intros b E; [exists b; right; reflexivity|].
    destruct b as [|u b]; [exists (t :: a); left; reflexivity|]. cbn in E. injection E as -> E. destruct (IH _ E) as (c & [->| ->]); exists c; [left|right]; reflexivity. }
  destruct X as (c & [->| ->]); rewrite <- app_assoc in E; apply app_inv_head in E.
  - destruct c as [|t c]; [rewrite app_nil_r in *; injection E as ->; auto|]. injection E as -> _. rewrite depth_app, B in A. discriminate A.
  - destruct c as [|t c]; [rewrite app_nil_r in *; injection E as ->; auto|]. injection E as <- _. rewrite depth_app, A in B. discriminate B.
Qed.

Section Sim.
Variable v : vocabulary.
Definition reads (ts r : list tok) : Prop := exists c, balanced_toks c /\ ts = c ++ r.
Lemma reads_refl ts : reads ts ts. Proof. exists []. split; [apply bal_nil|reflexivity]. Qed.
Lemma reads_trans a b c : reads a b -> reads b c -> reads a c.
Proof. intros (x & X & ->) (y & Y & ->). exists (x ++ y). split; [apply bal_app; assumption|apply app_assoc]. Qed.
Lemma reads_cons t a b : flat t = true -> reads a b -> reads (t :: a) b.
Proof. intros F (x & X & ->). exists (t :: x). split; [apply bal_cons; assumption|reflexivity]. Qed.
Lemma reads_paren a b : reads a (TRp :: b) -> reads (TLp :: a) b.
Proof. intros (x & X & ->). exists (TLp :: x ++ [TRp]). split; [apply bal_paren, X|]. cbn. rewrite <- app_assoc. reflexivity. Qed.
Definition reads_all (n : nat) : Prop :=
  (forall ts e r, p_cmp v n ts = Some (e, r) -> reads ts r) /\
  (forall ts e r, p_sum v n ts = Some (e, r) -> reads ts r) /\
  (forall a ts e r, p_sum_rest v n a ts = Some (e, r) -> reads ts r) /\
  (forall ts e r, p_mul v n ts = Some (e, r) -> reads ts r) /\
  (forall a ts e r, p_mul_rest v n a ts = Some (e, r) -> reads ts r) /\
  (forall ts e r, p_un v n ts = Some (e, r) -> reads ts r) /\
  (forall ts e r, p_atom v n ts = Some (e, r) -> reads ts r) /\
  (forall ts e r, p_args v n ts = Some (e, r) -> reads ts (TRp :: r)).
Ltac eight := refine (conj _ (conj _ (conj _ (conj _ (conj _ (conj _ (conj _ _))))))).
Lemma reads_parse n : reads_all n.
Proof.
  induction n as [|n (Icmp & Isum & Isumr & Imul & Imulr & Iun & Iatom & Iargs)];
    [unfold reads_all; eight; (intros ? ? ? ? H || intros ? ? ? H); cbn in H; discriminate H|]. unfold reads_all; eight.
  - intros ts e r H. rewrite p_cmp_S in H. destruct (p_sum v n ts) as [[a ts1]|] eqn:E; [|discriminate]. apply Isum in E.
    assert (D : forall o, match p_sum v n (tl ts1) with Some (b, ts2) => Some (ECmp o a b, ts2) | None => None end = Some (e, r) -> reads (tl ts1) r).
    { intros o Ho. destruct (p_sum v n (tl ts1)) as [[b ts2]|] eqn:E2; [|discriminate]. injection Ho as <- <-. apply Isum in E2. exact E2. }
    destruct ts1 as [|t ts1]; [injection H as <- <-; exact E|].
    destruct t; try (injection H as <- <-; exact E); apply (reads_trans _ _ _ E); apply reads_cons; try reflexivity; exact (D _ H).
  - intros ts e r H. rewrite p_sum_S in H. destruct (p_mul v n ts) as [[a ts1]|] eqn:E; [|discriminate]. apply (reads_trans _ _ _ (Imul _ _ _ E) (Isumr _ _ _ _ H)).
  - intros a ts e r H. rewrite p_sum_rest_S in H. destruct ts as [|t ts]; [injection H as <- <-; apply reads_refl|].
    destruct t; try (injection H as <- <-; apply reads_refl);
      (destruct (p_mul v n ts) as [[b ts1]|] eqn:E; [|discriminate]; apply reads_cons; [reflexivity|]; apply (reads_trans _ _ _ (Imul _ _ _ E) (Isumr _ _ _ _ H))).
  - intros ts e r H. rewrite p_mul_S in H. destruct (p_un v n ts) as [[a ts1]|] eqn:E; [|discriminate]. apply (reads_trans _ _ _ (Iun _ _ _ E) (Imulr _ _ _ _ H)).
  - intros a ts e r H. rewrite p_mul_rest_S in H. destruct ts as [|t ts]; [injection H as <- <-; apply reads_refl|].
    destruct t; try (injection H as <- <-; apply reads_refl);
      (destruct (p_un v n ts) as [[b ts1]|] eqn:E; [|discriminate]; apply reads_cons; [reflexivity|]; apply (reads_trans _ _ _ (Iun _ _ _ E) (Imulr _ _ _ _ H))).
  - intros ts e r H. assert (D : match ts with TMinus :: _ => False | _ => True end -> reads ts r).
    { intros F. rewrite un_eq in H by exact F. destruct (p_atom v n ts) as [[a ts1]|] eqn:E; [|discriminate]. apply Iatom in E.
      destruct ts1 as [|t ts1]; [injection H as <- <-; exact E|]. destruct t; try (injection H as <- <-; exact E).
      destruct (p_un v n ts1) as [[b ts2]|] eqn:E2; [|discriminate]. injection H as <- <-. apply (reads_trans _ _ _ E). apply reads_cons; [reflexivity|]. apply (Iun _ _ _ E2). }
    destruct ts as [|t ts]; [apply D; exact I|]. destruct t; try (apply D; exact I). rewrite p_un_S in H.
    destruct (p_un v n ts) as [[b ts1]|] eqn:E; [|discriminate]. injection H as <- <-. apply reads_cons; [reflexivity|]. apply (Iun _ _ _ E).
  - intros ts e r H. rewrite p_atom_S in H. destruct ts as [|t ts]; [discriminate|]. destruct t; try discriminate.
    + injection H as <- <-. apply reads_cons; [reflexivity|apply reads_refl].
    + apply reads_cons; [reflexivity|]. destruct ts as [|t ts]; [injection H as <- <-; apply reads_refl|]. destruct t; try (injection H as <- <-; apply reads_refl).
      destruct (p_args v n ts) as [[args ts1]|] eqn:E; [|discriminate]. destruct (mk_call v s args); [|discriminate]. injection H as <- <-. apply reads_paren, (Iargs _ _ _ E).
    + destruct (p_cmp v n ts) as [[a ts1]|] eqn:E; [|discriminate]. destruct ts1 as [|t ts1]; [discriminate|]. destruct t; try discriminate. injection H as <- <-.
      apply reads_paren, (Icmp _ _ _ E).
  - intros ts e r H. rewrite p_args_S in H. destruct (p_cmp v n ts) as [[a ts1]|] eqn:E; [|discriminate]. apply Icmp in E.
    destruct ts1 as [|t ts1]; [discriminate|]. destruct t; try discriminate.
    + injection H as <- <-. exact E.
    + destruct (p_args v n ts1) as [[l ts2]|] eqn:E2; [|discriminate]. injection H as <- <-. apply Iargs in E2.
      apply (reads_trans _ _ _ E). apply reads_cons; [reflexivity|exact E2].
Qed.

Lemma reads_len a b : reads a b -> (length b <= length a)%nat.
Proof. intros (c & _ & ->). rewrite app_length. lia. Qed.
Lemma rd_cmp n ts e r : p_cmp v n ts = Some (e, r) -> reads ts r. Proof. apply (reads_parse n). Qed.
Lemma rd_sum n ts e r : p_sum v n ts = Some (e, r) -> reads ts r. Proof. apply (reads_parse n). Qed.
Lemma rd_sumr n a ts e r : p_sum_rest v n a ts = Some (e, r) -> reads ts r. Proof. apply (reads_parse n). Qed.
Lemma rd_mul n ts e r : p_mul v n ts = Some (e, r) -> reads ts r. Proof. apply (reads_parse n). Qed.
Lemma rd_mulr n a ts e r : p_mul_rest v n a ts = Some (e, r) -> reads ts r. Proof. apply (reads_parse n). Qed.
Lemma rd_un n ts e r : p_un v n ts = Some (e, r) -> reads ts r. Proof. apply (reads_parse n). Qed.
Lemma rd_atom n ts e r : p_atom v n ts = Some (e, r) -> reads ts r. Proof. apply (reads_parse n). Qed.
Lemma rd_args n ts e r : p_args v n ts = Some (e, r) -> reads ts (TRp :: r). Proof. apply (reads_parse n). Qed.
(** What is left ends with any end of the input that it is at least as long as. *)
Lemma reads_tail C X r : reads (C ++ X) r -> (length X <= length r)%nat -> exists D, r = D ++ X /\ exists c, C = c ++ D.
Proof.
  intros (c & _ & E) L. revert C E. induction c as [|t c IH]; intros C E; [exists C; split; [symmetry; exact E|exists []; reflexivity]|].
  destruct C as [|u C]; [exfalso; cbn in E; subst X; cbn in L; rewrite app_length in L; lia|]. cbn in E. injection E as -> E.
  destruct (IH C E) as (D & -> & (c' & ->)). exists D. split; [reflexivity|]. exists (t :: c'). reflexivity.
Qed.

(** ** A parse that stops before some place depends only on the kind of token there *)
Section Local.
Variables X Y : list tok.
Hypothesis Hcmp : head_cmp X = head_cmp Y.
Hypothesis Hadd : head_add X = head_add Y.
Hypothesis Hmul : head_mul X = head_mul Y.
Hypothesis Hpow : head_pow X = head_pow Y.
Definition callable (C : list tok) : Prop := head_lp X = head_lp Y \/ forall C' x, C <> C' ++ [TId x].
Lemma callable_tail c C : callable (c ++ C) -> callable C.
Proof. intros [H|H]; [left; exact H|right]. intros C' x ->. apply (H (c ++ C') x). apply app_assoc. Qed.
Lemma callable_cons t C : callable (t :: C) -> callable C. Proof. apply (callable_tail [t]). Qed.
Lemma head_same {A} (f : list tok -> A) C : (forall t a b, f (t :: a) = f (t :: b)) -> f X = f Y -> f (C ++ X) = f (C ++ Y).
Proof. intros H E. destruct C as [|t C]; [exact E|apply H]. Qed.
Lemma hcmp C : head_cmp (C ++ X) = head_cmp (C ++ Y). Proof. apply head_same; [reflexivity|exact Hcmp]. Qed.
Lemma hadd C : head_add (C ++ X) = head_add (C ++ Y). Proof. apply head_same; [reflexivity|exact Hadd]. Qed.
Lemma hmul C : head_mul (C ++ X) = head_mul (C ++ Y). Proof. apply head_same; [reflexivity|exact Hmul]. Qed.
Lemma hpow C : head_pow (C ++ X) = head_pow (C ++ Y). Proof. apply head_same; [reflexivity|exact Hpow]. Qed.
Definition local (n : nat) : Prop :=
  (forall C D e, callable C -> p_cmp v n (C ++ X) = Some (e, D ++ X) -> Pcmp v (C ++ Y) e (D ++ Y)) /\
  (forall C D e, callable C -> p_sum v n (C ++ X) = Some (e, D ++ X) -> Psum v (C ++ Y) e (D ++ Y)) /\
  (forall a C D e, callable C -> p_sum_rest v n a (C ++ X) = Some (e, D ++ X) -> Psumr v a (C ++ Y) e (D ++ Y)) /\
  (forall C D e, callable C -> p_mul v n (C ++ X) = Some (e, D ++ X) -> Pmul v (C ++ Y) e (D ++ Y)) /\
  (forall a C D e, callable C -> p_mul_rest v n a (C ++ X) = Some (e, D ++ X) -> Pmulr v a (C ++ Y) e (D ++ Y)) /\
  (forall C D e, callable C -> p_un v n (C ++ X) = Some (e, D ++ X) -> Pun v (C ++ Y) e (D ++ Y)) /\
  (forall C D e, callable C -> p_atom v n (C ++ X) = Some (e, D ++ X) -> Patom v (C ++ Y) e (D ++ Y)) /\
  (forall C D e, callable C -> p_args v n (C ++ X) = Some (e, D ++ X) -> Pargs v (C ++ Y) e (D ++ Y)).
(** A token read before a parse that leaves at least [X] is not in [X]. *)
Lemma read_first C t ts D : C ++ X = t :: ts -> reads ts (D ++ X) -> exists C', C = t :: C' /\ ts = C' ++ X.
Proof.
  intros E R. apply reads_len in R. rewrite app_length in R. destruct C as [|u C]; [exfalso; cbn in E; rewrite E in R; cbn in R; lia|].
  cbn in E. injection E as -> <-. exists C. auto.
Qed.
Lemma read_more c C D : reads (C ++ X) c -> reads c (D ++ X) -> exists D', c = D' ++ X /\ exists c', C = c' ++ D'.
Proof. intros R1 R2. apply (reads_tail C X c R1). apply reads_len in R2. rewrite app_length in R2. lia. Qed.
Lemma cancel D D' : D ++ X = D' ++ X -> D = D'. Proof. apply app_inv_tail. Qed.
Lemma local_parse n : local n.
Proof.
  induction n as [|n (Icmp & Isum & Isumr & Imul & Imulr & Iun & Iatom & Iargs)];
    [unfold local; eight; intros; discriminate|]. unfold local; eight.
  - intros C D e K H. rewrite p_cmp_S in H. destruct (p_sum v n (C ++ X)) as [[a ts1]|] eqn:E; [|discriminate]. pose proof (rd_sum _ _ _ _ E) as R.
    assert (Stop : head_cmp ts1 = None -> Some (a, ts1) = Some (e, D ++ X) -> Pcmp v (C ++ Y) e (D ++ Y)).
    { intros Hh G. injection G as <- ->. apply cmp_stop; [apply (Isum _ _ _ K E)|rewrite <- hcmp; exact Hh]. }
    assert (Go : forall t o ts2, ts1 = t :: ts2 -> cmp_of t = Some o -> match p_sum v n ts2 with Some (b, ts) => Some (ECmp o a b, ts) | None => None end = Some (e, D ++ X) -> Pcmp v (C ++ Y) e (D ++ Y)).
    { intros t o ts2 -> Ht G. destruct (p_sum v n ts2) as [[b ts3]|] eqn:E2; [|discriminate]. injection G as <- ->. pose proof (rd_sum _ _ _ _ E2) as R2.
      destruct (read_more _ _ D R) as (D1 & E1 & (c' & ->)). { apply (reads_cons t); [destruct t; try discriminate; reflexivity|exact R2]. }
      destruct (read_first D1 t ts2 D (eq_sym E1) R2) as (D2 & -> & ->).
      apply (cmp_go v _ a t o (D2 ++ Y) b); [apply (Isum _ (t :: D2) _ K E)|exact Ht|]. apply Isum; [|exact E2]. apply (callable_cons t), (callable_tail c'), K. }
    destruct ts1 as [|t ts1]; [apply (Stop eq_refl H)|]. destruct t; try (apply (Stop eq_refl H)); apply (Go _ _ ts1 eq_refl eq_refl H).
  - intros C D e K H. rewrite p_sum_S in H. destruct (p_mul v n (C ++ X)) as [[a ts1]|] eqn:E; [|discriminate].
    destruct (read_more _ _ D (rd_mul _ _ _ _ E) (rd_sumr _ _ _ _ _ H)) as (D1 & -> & (c' & ->)).
    apply (sum_intro v _ a (D1 ++ Y)); [apply (Imul _ _ _ K E)|apply (Isumr _ _ _ _ (callable_tail _ _ K) H)].
  - intros a C D e K H. rewrite p_sum_rest_S in H.
    assert (Stop : head_add (C ++ X) = None -> Some (a, C ++ X) = Some (e, D ++ X) -> Psumr v a (C ++ Y) e (D ++ Y)).
    { intros Hh G. injection G as <- G. apply cancel in G. subst D. apply sumr_stop. rewrite <- hadd. exact Hh. }
    assert (Go : forall t o ts2, C ++ X = t :: ts2 -> add_of t = Some o -> match p_mul v n ts2 with Some (b, ts) => p_sum_rest v n (o a b) ts | None => None end = Some (e, D ++ X) -> Psumr v a (C ++ Y) e (D ++ Y)).
    { intros t o ts2 E0 Ht G. destruct (p_mul v n ts2) as [[b ts3]|] eqn:E2; [|discriminate]. pose proof (rd_mul _ _ _ _ E2) as R2. pose proof (rd_sumr _ _ _ _ _ G) as R3.
      destruct (read_first C t ts2 D E0 (reads_trans _ _ _ R2 R3)) as (C' & -> & ->). destruct (read_more _ _ D R2 R3) as (D1 & -> & (c' & ->)).
      apply callable_cons in K. cbn [app]. apply (sumr_go v _ t o _ b (D1 ++ Y)); [exact Ht|apply (Imul _ _ _ K E2)|apply (Isumr _ _ _ _ (callable_tail _ _ K) G)]. }
    destruct (C ++ X) as [|t ts1] eqn:E0; [apply (Stop eq_refl H)|]. destruct t; try (apply (Stop eq_refl H)); apply (Go _ _ ts1 eq_refl eq_refl H).
  - intros C D e K H. rewrite p_mul_S in H. destruct (p_un v n (C ++ X)) as [[a ts1]|] eqn:E; [|discriminate].
    destruct (read_more _ _ D (rd_un _ _ _ _ E) (rd_mulr _ _ _ _ _ H)) as (D1 & -> & (c' & ->)).
    apply (mul_intro v _ a (D1 ++ Y)); [apply (Iun _ _ _ K E)|apply (Imulr _ _ _ _ (callable_tail _ _ K) H)].
  - intros a C D e K H. rewrite p_mul_rest_S in H.
    assert (Stop : head_mul (C ++ X) = None -> Some (a, C ++ X) = Some (e, D ++ X) -> Pmulr v a (C ++ Y) e (D ++ Y)).
    { intros Hh G. injection G as <- G. apply cancel in G. subst D. apply mulr_stop. rewrite <- hmul. exact Hh. }
    assert (Go : forall t o ts2, C ++ X = t :: ts2 -> mul_of t = Some o -> match p_un v n ts2 with Some (b, ts) => p_mul_rest v n (o a b) ts | None => None end = Some (e, D ++ X) -> Pmulr v a (C ++ Y) e (D ++ Y)).
    { intros t o ts2 E0 Ht G. destruct (p_un v n ts2) as [[b ts3]|] eqn:E2; [|discriminate]. pose proof (rd_un _ _ _ _ E2) as R2. pose proof (rd_mulr _ _ _ _ _ G) as R3.
      destruct (read_first C t ts2 D E0 (reads_trans _ _ _ R2 R3)) as (C' & -> & ->). destruct (read_more _ _ D R2 R3) as (D1 & -> & (c' & ->)).
      apply callable_cons in K. cbn [app]. apply (mulr_go v _ t o _ b (D1 ++ Y)); [exact Ht|apply (Iun _ _ _ K E2)|apply (Imulr _ _ _ _ (callable_tail _ _ K) G)]. }
    destruct (C ++ X) as [|t ts1] eqn:E0; [apply (Stop eq_refl H)|]. destruct t; try (apply (Stop eq_refl H)); apply (Go _ _ ts1 eq_refl eq_refl H).
  - intros C D e K H.
    assert (Z : match C ++ X with TMinus :: _ => False | _ => True end -> Pun v (C ++ Y) e (D ++ Y)).
    { intros F. rewrite un_eq in H by exact F. destruct (p_atom v n (C ++ X)) as [[a ts1]|] eqn:E; [|discriminate]. pose proof (rd_atom _ _ _ _ E) as R.
      assert (Stop : head_pow ts1 = false -> Some (a, ts1) = Some (e, D ++ X) -> Pun v (C ++ Y) e (D ++ Y)).
      { intros Hh G. injection G as <- ->. apply un_atom; [apply (Iatom _ _ _ K E)|rewrite <- hpow; exact Hh]. }
      destruct ts1 as [|t ts1]; [apply (Stop eq_refl H)|]. destruct t; try (apply (Stop eq_refl H)). clear Stop.
      destruct (p_un v n ts1) as [[b ts2]|] eqn:E2; [|discriminate]. injection H as <- ->. pose proof (rd_un _ _ _ _ E2) as R2.
      destruct (read_more _ _ D R) as (D1 & E1 & (c' & ->)). { apply (reads_cons TPow); [reflexivity|exact R2]. }
      destruct (read_first D1 TPow ts1 D (eq_sym E1) R2) as (D2 & -> & ->).
      apply (un_pow v _ a (D2 ++ Y) b); [apply (Iatom _ (TPow :: D2) _ K E)|]. apply Iun; [|exact E2]. apply (callable_cons TPow), (callable_tail c'), K. }
    destruct (C ++ X) as [|t ts] eqn:E0; [apply Z; exact I|]. destruct t; try (apply Z; exact I). clear Z. rewrite p_un_S in H.
    destruct (p_un v n ts) as [[b ts1]|] eqn:E; [|discriminate]. injection H as <- ->. pose proof (rd_un _ _ _ _ E) as R.
    destruct (read_first C TMinus ts D E0 R) as (C' & -> & ->). cbn [app]. apply un_minus. apply (Iun _ _ _ (callable_cons _ _ K) E).
  - intros C D e K H. rewrite p_atom_S in H. destruct (C ++ X) as [|t ts] eqn:E0; [discriminate|]. destruct t; try discriminate.
    + injection H as <- H. destruct (read_first C _ ts D E0) as (C' & -> & ->); [rewrite H; apply reads_refl|]. apply cancel in H. subst D. apply atom_num.
    + assert (Var : head_lp ts = false -> Some (mk_var v s, ts) = Some (e, D ++ X) -> Patom v (C ++ Y) e (D ++ Y)).
      { intros Hh G. injection G as <- G. destruct (read_first C _ ts D E0) as (C' & -> & ->); [rewrite G; apply reads_refl|]. apply cancel in G. subst D.
        cbn [app]. apply atom_var. destruct C' as [|t C']; [|exact Hh]. cbn [app] in *. destruct K as [K|K]; [congruence|]. exfalso. apply (K [] s). reflexivity. }
      destruct ts as [|t ts]; [apply (Var eq_refl H)|]. destruct t; try (apply (Var eq_refl H)). clear Var.
      destruct (p_args v n ts) as [[args ts1]|] eqn:E; [|discriminate]. destruct (mk_call v s args) eqn:M; [|discriminate]. injection H as <- ->.
      pose proof (rd_args _ _ _ _ E) as R. assert (R' : reads (TLp :: ts) (D ++ X)) by (apply reads_paren, R).
      destruct (read_first C _ _ D E0 R') as (C1 & -> & E1).
      assert (L : (length (D ++ X) < length ts)%nat) by (apply reads_len in R; cbn in R; lia). rewrite app_length in L.
      destruct C1 as [|t C2]; [exfalso; cbn in E1; rewrite <- E1 in L; cbn in L; lia|]. cbn in E1. injection E1 as <- ->. cbn [app].
      apply (atom_call v s _ args); [apply Iargs; [|exact E]|exact M]. apply (callable_tail [TId s; TLp]), K.
    + destruct (p_cmp v n ts) as [[a ts1]|] eqn:E; [|discriminate]. destruct ts1 as [|t ts1]; [discriminate|]. destruct t; try discriminate. injection H as <- ->.
      pose proof (rd_cmp _ _ _ _ E) as R. change (TRp :: D ++ X) with ((TRp :: D) ++ X) in *. destruct (read_first C _ _ _ E0 R) as (C1 & -> & ->).
      cbn [app]. apply atom_paren. apply (Icmp _ (TRp :: D) _ (callable_cons _ _ K) E).
  - intros C D e K H. rewrite p_args_S in H. destruct (p_cmp v n (C ++ X)) as [[a ts1]|] eqn:E; [|discriminate]. pose proof (rd_cmp _ _ _ _ E) as R.
    destruct ts1 as [|t ts1]; [discriminate|]. destruct t; try discriminate.
    + injection H as <- ->. apply args_one. apply (Icmp _ (TRp :: D) _ K E).
    + destruct (p_args v n ts1) as [[l ts2]|] eqn:E2; [|discriminate]. injection H as <- ->. pose proof (rd_args _ _ _ _ E2) as R2.
      change (TRp :: D ++ X) with ((TRp :: D) ++ X) in R2.
      destruct (read_more _ _ (TRp :: D) R) as (D1 & E1 & (c' & ->)). { apply (reads_cons TComma); [reflexivity|exact R2]. }
      destruct (read_first D1 TComma ts1 _ (eq_sym E1) R2) as (D2 & -> & ->).
      apply (args_more v _ a (D2 ++ Y) l); [apply (Icmp _ (TComma :: D2) _ K E)|]. apply Iargs; [|exact E2]. apply (callable_cons TComma), (callable_tail c'), K.
Qed.
End Local.

(** ** Expressions that differ in how cube roots are written *)
Inductive rooted : expr -> expr -> Prop :=
| rt_root b : rooted (EPow b (EDiv (ENum 1) (ENum 3))) (EFn1 FCbrt b)
| rt_num q : rooted (ENum q) (ENum q) | rt_pi : rooted EPi EPi | rt_var x : rooted (EVar x) (EVar x)
| rt_neg a a' : rooted a a' -> rooted (ENeg a) (ENeg a')
| rt_add a a' b b' : rooted a a' -> rooted b b' -> rooted (EAdd a b) (EAdd a' b')
| rt_sub a a' b b' : rooted a a' -> rooted b b' -> rooted (ESub a b) (ESub a' b')
| rt_mul a a' b b' : rooted a a' -> rooted b b' -> rooted (EMul a b) (EMul a' b')
| rt_div a a' b b' : rooted a a' -> rooted b b' -> rooted (EDiv a b) (EDiv a' b')
| rt_pow a a' b b' : rooted a a' -> rooted b b' -> rooted (EPow a b) (EPow a' b')
| rt_cmp o a a' b b' : rooted a a' -> rooted b b' -> rooted (ECmp o a b) (ECmp o a' b')
| rt_or a a' b b' : rooted a a' -> rooted b b' -> rooted (EOr a b) (EOr a' b')
| rt_and a a' b b' : rooted a a' -> rooted b b' -> rooted (EAnd a b) (EAnd a' b')
| rt_cond c c' a a' b b' : rooted c c' -> rooted a a' -> rooted b b' -> rooted (ECond c a b) (ECond c' a' b')
| rt_fn1 f a a' : rooted a a' -> rooted (EFn1 f a) (EFn1 f a')
| rt_fn2 f a a' b b' : rooted a a' -> rooted b b' -> rooted (EFn2 f a b) (EFn2 f a' b')
| rt_fn3 f a a' b b' c c' : rooted a a' -> rooted b b' -> rooted c c' -> rooted (EFn3 f a b c) (EFn3 f a' b' c').
Lemma rt_refl e : rooted e e. Proof. induction e; constructor; assumption. Qed.
Lemma rooted_call f args args' e : Forall2 rooted args args' -> mk_call v f args = Some e -> exists e', mk_call v f args' = Some e' /\ rooted e e'.
Proof.
  intros F H. unfold mk_call in *. destruct (v_prim v f) as [p|]; [|discriminate].
  destruct F as [|a a' ? ? Ra F]; [destruct p; discriminate|]. destruct F as [|b b' ? ? Rb F].
  { destruct p; try discriminate; injection H as <-; eexists; (split; [reflexivity|constructor; assumption]). }
  destruct F as [|c c' ? ? Rc F]. { destruct p; try discriminate; injection H as <-; eexists; (split; [reflexivity|constructor; assumption]). }
  destruct F; destruct p; try discriminate; injection H as <-; eexists; (split; [reflexivity|constructor; assumption]).
Qed.
(** The operand parsed so far may be replaced. *)
Lemma sumr_rooted n : forall a a' ts e r, rooted a a' -> p_sum_rest v n a ts = Some (e, r) -> exists e', rooted e e' /\ p_sum_rest v n a' ts = Some (e', r).
Proof.
  induction n as [|n IH]; intros a a' ts e r R H; [discriminate|]. rewrite p_sum_rest_S in *.
  assert (Z : Some (a, ts) = Some (e, r) -> exists e', rooted e e' /\ Some (a', ts) = Some (e', r)) by (intros G; injection G as <- <-; exists a'; auto).
  destruct ts as [|t ts]; [exact (Z H)|]. destruct t; try exact (Z H);
    (destruct (p_mul v n ts) as [[b ts1]|]; [|discriminate]; eapply IH; [|exact H]; constructor; [exact R|apply rt_refl]).
Qed.
Lemma mulr_rooted n : forall a a' ts e r, rooted a a' -> p_mul_rest v n a ts = Some (e, r) -> exists e', rooted e e' /\ p_mul_rest v n a' ts = Some (e', r).
Proof.
  induction n as [|n IH]; intros a a' ts e r R H; [discriminate|]. rewrite p_mul_rest_S in *.
  assert (Z : Some (a, ts) = Some (e, r) -> exists e', rooted e e' /\ Some (a', ts) = Some (e', r)) by (intros G; injection G as <- <-; exists a'; auto).
  destruct ts as [|t ts]; [exact (Z H)|]. destruct t; try exact (Z H);
    (destruct (p_un v n ts) as [[b ts1]|]; [|discriminate]; eapply IH; [|exact H]; constructor; [exact R|apply rt_refl]).
Qed.

(** ** Replacing the power by the call *)
Section Replace.
(** [A]: an operand and its exponent; [B]: the call. *)
Variables A B Q : list tok.
Hypothesis HB : exists x B', B = TId x :: B'.
Hypothesis HA : exists t A', A = t :: A' /\ match t with TId _ | TNum _ | TLp => True | _ => False end.
(** At the start of [A] an operand with its exponent is read to the end of [A]. *)
Hypothesis HAB : forall n e r, p_un v n (A ++ Q) = Some (e, r) -> r = Q /\ exists e', rooted e e' /\ Pun v (B ++ Q) e' Q.
Let X := A ++ Q.
Let Y := B ++ Q.
Definition calm (C : list tok) : Prop := forall C' x, C <> C' ++ [TId x].
Lemma calm_tail c C : calm (c ++ C) -> calm C.
Proof. intros H C' x ->. apply (H (c ++ C') x). apply app_assoc. Qed.
Lemma calm_cons t C : calm (t :: C) -> calm C. Proof. apply (calm_tail [t]). Qed.
Lemma XY_cmp : head_cmp X = head_cmp Y.
Proof. unfold X, Y. destruct HB as (x & B' & ->). destruct HA as (t & A' & -> & F). destruct t; try elim F; reflexivity. Qed.
Lemma XY_add : head_add X = head_add Y.
Proof. unfold X, Y. destruct HB as (x & B' & ->). destruct HA as (t & A' & -> & F). destruct t; try elim F; reflexivity. Qed.
Lemma XY_mul : head_mul X = head_mul Y.
Proof. unfold X, Y. destruct HB as (x & B' & ->). destruct HA as (t & A' & -> & F). destruct t; try elim F; reflexivity. Qed.
Lemma XY_pow : head_pow X = head_pow Y.
Proof. unfold X, Y. destruct HB as (x & B' & ->). destruct HA as (t & A' & -> & F). destruct t; try elim F; reflexivity. Qed.
Lemma X_minus : match X with TMinus :: _ => False | _ => True end.
Proof. unfold X. destruct HA as (t & A' & -> & F). destruct t; try elim F; exact I. Qed.
Lemma X_head t ts : X = t :: ts -> match t with TId _ | TNum _ | TLp => True | _ => False end.
Proof. unfold X. destruct HA as (u & A' & -> & F). intros E. injection E as <- _. exact F. Qed.
(** Before [X]: the same parse. *)
Lemma before n : local X Y n. Proof. apply local_parse; [apply XY_cmp|apply XY_add|apply XY_mul|apply XY_pow]. Qed.
Lemma calm_callable C : calm C -> callable X Y C. Proof. intros H. right. exact H. Qed.
Definition past (r : list tok) : Prop := (length r < length X)%nat.
Definition swapped (n : nat) : Prop :=
  (forall C e r, calm C -> p_cmp v n (C ++ X) = Some (e, r) -> past r -> exists e', rooted e e' /\ Pcmp v (C ++ Y) e' r) /\
  (forall C e r, calm C -> p_sum v n (C ++ X) = Some (e, r) -> past r -> exists e', rooted e e' /\ Psum v (C ++ Y) e' r) /\
  (forall a C e r, calm C -> p_sum_rest v n a (C ++ X) = Some (e, r) -> past r -> exists e', rooted e e' /\ Psumr v a (C ++ Y) e' r) /\
  (forall C e r, calm C -> p_mul v n (C ++ X) = Some (e, r) -> past r -> exists e', rooted e e' /\ Pmul v (C ++ Y) e' r) /\
  (forall a C e r, calm C -> p_mul_rest v n a (C ++ X) = Some (e, r) -> past r -> exists e', rooted e e' /\ Pmulr v a (C ++ Y) e' r) /\
  (forall C e r, calm C -> p_un v n (C ++ X) = Some (e, r) -> past r -> exists e', rooted e e' /\ Pun v (C ++ Y) e' r) /\
  (forall C e r, calm C -> C <> [] -> p_atom v n (C ++ X) = Some (e, r) -> past r -> exists e', rooted e e' /\ Patom v (C ++ Y) e' r) /\
  (forall C e r, calm C -> p_args v n (C ++ X) = Some (e, r) -> past r -> exists e', Forall2 rooted e e' /\ Pargs v (C ++ Y) e' r).
Lemma past_or C r : reads (C ++ X) r -> past r \/ exists D, r = D ++ X /\ exists c, C = c ++ D.
Proof. intros R. destruct (Nat.lt_ge_cases (length r) (length X)) as [H|H]; [left; exact H|right]. apply (reads_tail C X r R H). Qed.
Lemma all_refl l : Forall2 rooted l l. Proof. induction l; constructor; auto using rt_refl. Qed.
Lemma swap_parse n : swapped n.
Proof.
  induction n as [|n (Icmp & Isum & Isumr & Imul & Imulr & Iun & Iatom & Iargs)]; [unfold swapped; eight; intros; discriminate|].
  pose proof (before n) as (Lcmp & Lsum & Lsumr & Lmul & Lmulr & Lun & Latom & Largs). unfold swapped; eight.
  - intros C e r K H P. rewrite p_cmp_S in H. destruct (p_sum v n (C ++ X)) as [[a ts1]|] eqn:E; [|discriminate].
    assert (Stop : head_cmp ts1 = None -> Some (a, ts1) = Some (e, r) -> exists e', rooted e e' /\ Pcmp v (C ++ Y) e' r).
    { intros Hh G. injection G as <- <-. destruct (Isum _ _ _ K E P) as (e' & R & S'). exists e'. split; [exact R|]. apply cmp_stop; assumption. }
    assert (Go : forall t o ts2, ts1 = t :: ts2 -> cmp_of t = Some o -> match p_sum v n ts2 with Some (b, ts) => Some (ECmp o a b, ts) | None => None end = Some (e, r) -> exists e', rooted e e' /\ Pcmp v (C ++ Y) e' r).
    { intros t o ts2 -> Ht G. destruct (p_sum v n ts2) as [[b ts3]|] eqn:E2; [|discriminate]. injection G as <- <-.
      destruct (past_or C _ (rd_sum _ _ _ _ E)) as [Pp|(D & ED & (c & ->))].
      - destruct (Isum _ _ _ K E Pp) as (a' & R & S'). exists (ECmp o a' b). split; [constructor; [exact R|apply rt_refl]|]. apply (cmp_go v _ a' t o ts2 b); [exact S'|exact Ht|exists n; exact E2].
      - destruct D as [|u D]; [exfalso; symmetry in ED; cbn in ED; apply X_head in ED; destruct t; try discriminate Ht; exact ED|]. cbn in ED. injection ED as <- ->.
        destruct (Isum D _ _ (calm_cons _ _ (calm_tail _ _ K)) E2 P) as (b' & R & S'). exists (ECmp o a b'). split; [constructor; [apply rt_refl|exact R]|].
        apply (cmp_go v _ a t o (D ++ Y) b'); [|exact Ht|exact S']. apply (Lsum _ (t :: D) _ (calm_callable _ K) E). }
    destruct ts1 as [|t ts1]; [apply (Stop eq_refl H)|]. destruct t; try (apply (Stop eq_refl H)); apply (Go _ _ ts1 eq_refl eq_refl H).
  - intros C e r K H P. rewrite p_sum_S in H. destruct (p_mul v n (C ++ X)) as [[a ts1]|] eqn:E; [|discriminate].
    destruct (past_or C _ (rd_mul _ _ _ _ E)) as [Pp|(D & -> & (c & ->))].
    + destruct (Imul _ _ _ K E Pp) as (a' & R & S'). destruct (sumr_rooted _ _ _ _ _ _ R H) as (e' & R' & H'). exists e'. split; [exact R'|].
      apply (sum_intro v _ a' ts1); [exact S'|exists n; exact H'].
    + destruct (Isumr _ D _ _ (calm_tail _ _ K) H P) as (e' & R & S'). exists e'. split; [exact R|]. apply (sum_intro v _ a (D ++ Y)); [apply (Lmul _ _ _ (calm_callable _ K) E)|exact S'].
  - intros a C e r K H P. rewrite p_sum_rest_S in H.
    assert (Stop : Some (a, C ++ X) = Some (e, r) -> exists e', rooted e e' /\ Psumr v a (C ++ Y) e' r).
    { intros G. injection G as <- <-. exfalso. unfold past in P. rewrite app_length in P. lia. }
    assert (Go : forall t o ts2, C ++ X = t :: ts2 -> add_of t = Some o -> (forall x y x' y', rooted x x' -> rooted y y' -> rooted (o x y) (o x' y')) ->
       match p_mul v n ts2 with Some (b, ts) => p_sum_rest v n (o a b) ts | None => None end = Some (e, r) -> exists e', rooted e e' /\ Psumr v a (C ++ Y) e' r).
    { intros t o ts2 E0 Ht Ho G. destruct C as [|u C]; [exfalso; cbn in E0; apply X_head in E0; destruct t; try discriminate Ht; exact E0|]. cbn in E0. injection E0 as -> <-. apply calm_cons in K.
      destruct (p_mul v n (C ++ X)) as [[b ts3]|] eqn:E2; [|discriminate]. cbn [app].
      destruct (past_or C _ (rd_mul _ _ _ _ E2)) as [Pp|(D & -> & (c & ->))].
      - destruct (Imul _ _ _ K E2 Pp) as (b' & R & S'). destruct (sumr_rooted _ _ _ _ _ _ (Ho _ _ _ _ (rt_refl a) R) G) as (e' & R' & G'). exists e'. split; [exact R'|].
        apply (sumr_go v _ t o _ b' ts3); [exact Ht|exact S'|exists n; exact G'].
      - destruct (Isumr _ D _ _ (calm_tail _ _ K) G P) as (e' & R & S'). exists e'. split; [exact R|].
        apply (sumr_go v _ t o _ b (D ++ Y)); [exact Ht|apply (Lmul _ _ _ (calm_callable _ K) E2)|exact S']. }
    destruct (C ++ X) as [|t ts1] eqn:E0; [apply (Stop H)|]. destruct t; try (apply (Stop H)); (eapply Go; [reflexivity|reflexivity| |exact H]; intros; constructor; assumption).
  - intros C e r K H P. rewrite p_mul_S in H. destruct (p_un v n (C ++ X)) as [[a ts1]|] eqn:E; [|discriminate].
    destruct (past_or C _ (rd_un _ _ _ _ E)) as [Pp|(D & -> & (c & ->))].
    + destruct (Iun _ _ _ K E Pp) as (a' & R & S'). destruct (mulr_rooted _ _ _ _ _ _ R H) as (e' & R' & H'). exists e'. split; [exact R'|].
      apply (mul_intro v _ a' ts1); [exact S'|exists n; exact H'].
    + destruct (Imulr _ D _ _ (calm_tail _ _ K) H P) as (e' & R & S'). exists e'. split; [exact R|]. apply (mul_intro v _ a (D ++ Y)); [apply (Lun _ _ _ (calm_callable _ K) E)|exact S'].
  - intros a C e r K H P. rewrite p_mul_rest_S in H.
    assert (Stop : Some (a, C ++ X) = Some (e, r) -> exists e', rooted e e' /\ Pmulr v a (C ++ Y) e' r).
    { intros G. injection G as <- <-. exfalso. unfold past in P. rewrite app_length in P. lia. }
    assert (Go : forall t o ts2, C ++ X = t :: ts2 -> mul_of t = Some o -> (forall x y x' y', rooted x x' -> rooted y y' -> rooted (o x y) (o x' y')) ->
       match p_un v n ts2 with Some (b, ts) => p_mul_rest v n (o a b) ts | None => None end = Some (e, r) -> exists e', rooted e e' /\ Pmulr v a (C ++ Y) e' r).
    { intros t o ts2 E0 Ht Ho G. destruct C as [|u C]; [exfalso; cbn in E0; apply X_head in E0; destruct t; try discriminate Ht; exact E0|]. cbn in E0. injection E0 as -> <-. apply calm_cons in K.
      destruct (p_un v n (C ++ X)) as [[b ts3]|] eqn:E2; [|discriminate]. cbn [app].
      destruct (past_or C _ (rd_un _ _ _ _ E2)) as [Pp|(D & -> & (c & ->))].
      - destruct (Iun _ _ _ K E2 Pp) as (b' & R & S'). destruct (mulr_rooted _ _ _ _ _ _ (Ho _ _ _ _ (rt_refl a) R) G) as (e' & R' & G'). exists e'. split; [exact R'|].
        apply (mulr_go v _ t o _ b' ts3); [exact Ht|exact S'|exists n; exact G'].
      - destruct (Imulr _ D _ _ (calm_tail _ _ K) G P) as (e' & R & S'). exists e'. split; [exact R|].
        apply (mulr_go v _ t o _ b (D ++ Y)); [exact Ht|apply (Lun _ _ _ (calm_callable _ K) E2)|exact S']. }
    destruct (C ++ X) as [|t ts1] eqn:E0; [apply (Stop H)|]. destruct t; try (apply (Stop H)); (eapply Go; [reflexivity|reflexivity| |exact H]; intros; constructor; assumption).
  - intros C e r K H P. destruct C as [|u C]; [destruct (HAB (S n) e r H) as (-> & e' & R & S'); exists e'; split; assumption|]. set (U := u :: C) in *.
    assert (Z : match U ++ X with TMinus :: _ => False | _ => True end -> exists e', rooted e e' /\ Pun v (U ++ Y) e' r).
    { intros F. rewrite un_eq in H by exact F. destruct (p_atom v n (U ++ X)) as [[a ts1]|] eqn:E; [|discriminate].
      assert (Stop : head_pow ts1 = false -> Some (a, ts1) = Some (e, r) -> exists e', rooted e e' /\ Pun v (U ++ Y) e' r).
      { intros Hh G. injection G as <- <-. destruct (Iatom U _ _ K ltac:(discriminate) E P) as (e' & R & S'). exists e'. split; [exact R|]. apply un_atom; assumption. }
      destruct ts1 as [|t ts1]; [apply (Stop eq_refl H)|]. destruct t; try (apply (Stop eq_refl H)). clear Stop.
      destruct (p_un v n ts1) as [[b ts2]|] eqn:E2; [|discriminate]. injection H as <- <-.
      destruct (past_or U _ (rd_atom _ _ _ _ E)) as [Pp|(D & ED & (c & EU))].
      - destruct (Iatom U _ _ K ltac:(discriminate) E Pp) as (a' & R & S'). exists (EPow a' b). split; [constructor; [exact R|apply rt_refl]|]. apply (un_pow v _ a' ts1 b); [exact S'|exists n; exact E2].
      - destruct D as [|w D]; [exfalso; symmetry in ED; cbn in ED; apply X_head in ED; exact ED|]. cbn in ED. injection ED as <- ->.
        rewrite EU in K. destruct (Iun D _ _ (calm_cons _ _ (calm_tail _ _ K)) E2 P) as (b' & R & S'). exists (EPow a b'). split; [constructor; [apply rt_refl|exact R]|].
        apply (un_pow v _ a (D ++ Y) b'); [|exact S']. rewrite <- EU in K. apply (Latom _ (TPow :: D) _ (calm_callable _ K) E). }
    unfold U in *. cbn [app] in *. destruct u; try (apply Z; exact I). clear Z. rewrite p_un_S in H.
    destruct (p_un v n (C ++ X)) as [[b ts1]|] eqn:E; [|discriminate]. injection H as <- <-. destruct (Iun _ _ _ (calm_cons _ _ K) E P) as (b' & R & S').
    exists (ENeg b'). split; [constructor; exact R|apply un_minus, S'].
  - intros C e r K N H P. rewrite p_atom_S in H. destruct C as [|u C]; [congruence|]. cbn [app] in *. destruct u; try discriminate.
    + injection H as <- <-. exfalso. unfold past in P. rewrite app_length in P. lia.
    + destruct C as [|w C]; [exfalso; apply (K [] s); reflexivity|]. cbn [app] in *.
      destruct w; try (injection H as <- <-; exfalso; unfold past in P; cbn [length] in P; rewrite app_length in P; lia).
      destruct (p_args v n (C ++ X)) as [[args ts1]|] eqn:E; [|discriminate]. destruct (mk_call v s args) eqn:M; [|discriminate]. injection H as <- <-.
      destruct (Iargs _ _ _ (calm_cons _ _ (calm_cons _ _ K)) E P) as (args' & R & S'). destruct (rooted_call _ _ _ _ R M) as (e' & M' & R'). exists e'. split; [exact R'|].
      apply (atom_call v s _ args'); assumption.
    + destruct (p_cmp v n (C ++ X)) as [[a ts1]|] eqn:E; [|discriminate]. destruct ts1 as [|t ts1]; [discriminate|]. destruct t; try discriminate. injection H as <- <-.
      destruct (past_or C _ (rd_cmp _ _ _ _ E)) as [Pp|(D & ED & (c & ->))].
      * destruct (Icmp _ _ _ (calm_cons _ _ K) E Pp) as (a' & R & S'). exists a'. split; [exact R|apply atom_paren, S'].
      * exfalso. destruct D as [|w D]; [symmetry in ED; cbn in ED; apply X_head in ED; exact ED|]. cbn in ED. injection ED as <- ->. unfold past in P. rewrite app_length in P. lia.
  - intros C e r K H P. rewrite p_args_S in H. destruct (p_cmp v n (C ++ X)) as [[a ts1]|] eqn:E; [|discriminate].
    destruct ts1 as [|t ts1]; [discriminate|]. pose proof (past_or C _ (rd_cmp _ _ _ _ E)) as O. destruct t; try discriminate.
    + injection H as <- <-. destruct O as [Pp|(D & ED & (c & ->))].
      * destruct (Icmp _ _ _ K E Pp) as (a' & R & S'). exists [a']. split; [constructor; [exact R|constructor]|apply args_one, S'].
      * exfalso. destruct D as [|w D]; [symmetry in ED; cbn in ED; apply X_head in ED; exact ED|]. cbn in ED. injection ED as <- ->. unfold past in P. rewrite app_length in P. lia.
    + destruct (p_args v n ts1) as [[l ts2]|] eqn:E2; [|discriminate]. injection H as <- <-. destruct O as [Pp|(D & ED & (c & ->))].
      * destruct (Icmp _ _ _ K E Pp) as (a' & R & S'). exists (a' :: l). split; [constructor; [exact R|apply all_refl]|]. apply (args_more v _ a' ts1 l); [exact S'|exists n; exact E2].
      * destruct D as [|w D]; [exfalso; symmetry in ED; cbn in ED; apply X_head in ED; exact ED|]. cbn in ED. injection ED as <- ->.
        destruct (Iargs D _ _ (calm_cons _ _ (calm_tail _ _ K)) E2 P) as (l' & R & S'). exists (a :: l'). split; [constructor; [apply rt_refl|exact R]|].
        apply (args_more v _ a (D ++ Y) l'); [|exact S']. apply (Lcmp _ (TComma :: D) _ (calm_callable _ K) E).
Qed.
(** A whole expression. *)
Theorem swap_expr P e : calm P -> Pcmp v (P ++ A ++ Q) e [] -> exists e', rooted e e' /\ Pcmp v (P ++ B ++ Q) e' [].
Proof.
  intros K (n & H). destruct (swap_parse n) as (I & _). apply (I P e [] K H). destruct HA as (t & A' & EA & _). unfold past, X. rewrite EA. cbn. lia.
Qed.
End Replace.

(** ** The two kinds of base *)
Definition third : list tok := [TPow; TLp; TNum 1; TSlash; TNum 3; TRp].
Definition cbrt_name : bstr := "jnp.cbrt".
Hypothesis Hcbrt : v_prim v cbrt_name = Some (P1 FCbrt).
Lemma cbrt_call b : mk_call v cbrt_name [b] = Some (EFn1 FCbrt b). Proof. unfold mk_call. rewrite Hcbrt. reflexivity. Qed.
(** The exponent is read whole. *)
Lemma third_read n Q b r : head_pow Q = false -> p_un v n (TLp :: TNum 1 :: TSlash :: TNum 3 :: TRp :: Q) = Some (b, r) -> b = EDiv (ENum 1) (ENum 3) /\ r = Q.
Proof.
  intros HQ H. assert (T : Pun v (TLp :: TNum 1 :: TSlash :: TNum 3 :: TRp :: Q) (EDiv (ENum 1) (ENum 3)) Q).
  { apply un_atom; [|exact HQ]. apply atom_paren. apply cmp_stop; [|reflexivity]. apply (sum_intro v _ (EDiv (ENum 1) (ENum 3)) (TRp :: Q)); [|apply sumr_stop; reflexivity].
    apply (mul_intro v _ (ENum 1) (TSlash :: TNum 3 :: TRp :: Q)); [apply un_atom; [apply atom_num|reflexivity]|].
    apply (mulr_go v _ TSlash EDiv _ (ENum 3) (TRp :: Q)); [reflexivity|apply un_atom; [apply atom_num|reflexivity]|apply mulr_stop; reflexivity]. }
  assert (U : Pun v (TLp :: TNum 1 :: TSlash :: TNum 3 :: TRp :: Q) b r) by (exists n; exact H).
  pose proof (big_un v _ _ _ T _ (Nat.le_refl _)) as E1. pose proof (big_un v _ _ _ U _ (Nat.le_refl _)) as E2. rewrite E1 in E2. injection E2 as <- <-. auto.
Qed.
Definition base_tok (t : tok) : Prop := match t with TNum _ | TId _ => True | _ => False end.
Lemma single_base t Q : base_tok t -> head_pow Q = false -> forall n e r, p_un v n ((t :: third) ++ Q) = Some (e, r) ->
  r = Q /\ exists e', rooted e e' /\ Pun v ((TId cbrt_name :: TLp :: t :: [TRp]) ++ Q) e' Q.
Proof.
  intros Ht HQ n e r H. destruct n as [|n]; [discriminate|]. rewrite un_eq in H by (destruct t; try elim Ht; exact I).
  assert (E : exists b, p_atom v n ((t :: third) ++ Q) = (match n with O => None | S _ => Some (b, third ++ Q) end) /\ forall s, head_lp s = false -> Patom v (t :: s) b s).
  { destruct t; try elim Ht.
    - exists (ENum q). split; [destruct n; reflexivity|]. intros s _. apply atom_num.
    - exists (mk_var v s). split; [destruct n; reflexivity|]. intros r' Hr. apply atom_var, Hr. }
  destruct E as (b & E & At). rewrite E in H. destruct n as [|n]; [discriminate|]. cbn [app third] in H.
  destruct (p_un v (S n) (TLp :: TNum 1 :: TSlash :: TNum 3 :: TRp :: Q)) as [[b2 ts2]|] eqn:E2; [|discriminate]. injection H as <- <-.
  apply (third_read _ _ _ _ HQ) in E2. destruct E2 as (-> & ->). split; [reflexivity|]. exists (EFn1 FCbrt b). split; [constructor|].
  apply un_atom; [|exact HQ]. cbn [app]. apply (atom_call v cbrt_name _ [b]); [|apply cbrt_call]. apply args_one. apply cmp_stop; [|reflexivity].
  apply (sum_intro v _ b (TRp :: Q)); [|apply sumr_stop; reflexivity]. apply (mul_intro v _ b (TRp :: Q)); [|apply mulr_stop; reflexivity].
  apply un_atom; [|reflexivity]. apply At. reflexivity.
Qed.
Lemma paren_base G Q : balanced_toks G -> head_pow Q = false -> forall n e r, p_un v n ((TLp :: G ++ TRp :: third) ++ Q) = Some (e, r) ->
  r = Q /\ exists e', rooted e e' /\ Pun v ((TId cbrt_name :: TLp :: G ++ [TRp]) ++ Q) e' Q.
Proof.
  intros B HQ n e r H. destruct n as [|n]; [discriminate|]. rewrite un_eq in H by exact I. cbn [app] in H. rewrite <- app_assoc in H.
  destruct n as [|n]; [discriminate|]. rewrite p_atom_S in H. cbn [app] in H.
  destruct (p_cmp v n (G ++ TRp :: third ++ Q)) as [[b ts1]|] eqn:E; [|discriminate]. destruct ts1 as [|t ts1]; [discriminate|]. destruct t; try discriminate.
  destruct (rd_cmp _ _ _ _ E) as (c & Bc & Ec). destruct (bal_unique _ _ _ _ B Bc Ec) as (<- & <-). cbn [third app] in H.
  destruct (p_un v (S n) (TLp :: TNum 1 :: TSlash :: TNum 3 :: TRp :: Q)) as [[b2 ts2]|] eqn:E2; [|discriminate]. injection H as <- <-.
  apply (third_read _ _ _ _ HQ) in E2. destruct E2 as (-> & ->). split; [reflexivity|]. exists (EFn1 FCbrt b). split; [constructor|].
  apply un_atom; [|exact HQ]. cbn [app]. apply (atom_call v cbrt_name _ [b]); [|apply cbrt_call]. apply args_one. rewrite <- app_assoc. cbn [app].
  destruct (local_parse (TRp :: third ++ Q) (TRp :: Q) eq_refl eq_refl eq_refl eq_refl n) as (L & _). apply (L G [] b (or_introl eq_refl) E).
Qed.
(** The tokens of an assignment. *)
Definition parse_toks (ts : list tok) : option stmt :=
  match ts with
  | TId x :: TAssign :: ts => match p_cmp v (10 * length ts + 10) ts with Some (e, []) => Some (x, e) | _ => None end
  | _ => None
  end.
Theorem swap_line A B Q P x e : (exists y B', B = TId y :: B') ->
  (exists t u A', A = t :: u :: A' /\ match t with TId _ => u <> TAssign | TNum _ | TLp => True | _ => False end) ->
  (forall n e r, p_un v n (A ++ Q) = Some (e, r) -> r = Q /\ exists e', rooted e e' /\ Pun v (B ++ Q) e' Q) ->
  calm P -> parse_toks (P ++ A ++ Q) = Some (x, e) -> exists e', rooted e e' /\ parse_toks (P ++ B ++ Q) = Some (x, e').
Proof.
  intros HB HA HAB K H. destruct P as [|t P].
  { exfalso. destruct HA as (t & u & A' & -> & F). cbn in H. destruct t; try discriminate. destruct u; try discriminate. congruence. }
  cbn [app parse_toks] in H. destruct t; try discriminate. destruct P as [|t P]; [exfalso; apply (K [] s); reflexivity|]. cbn [app] in H. destruct t; try discriminate.
  destruct (p_cmp v (10 * length (P ++ A ++ Q) + 10) (P ++ A ++ Q)) as [[e0 [|]]|] eqn:E; try discriminate. injection H as <- <-.
  destruct (swap_expr A B Q HB) with (P := P) (e := e0) as (e' & R & H').
  - destruct HA as (t & u & A' & -> & F). exists t, (u :: A'). split; [reflexivity|]. destruct t; try exact I; elim F.
  - exact HAB.
  - apply (calm_tail [TId s; TAssign]), K.
  - eexists. exact E.
  - exists e'. split; [exact R|]. cbn [app parse_toks]. rewrite (big_cmp v _ _ _ H') by (unfold big; lia). reflexivity.
Qed.
End Sim.

(** ** The value of the rewritten expression *)
From Coq Require Import Reals Lra Qreals.
From Verif Require Import PostProcess Src Semantics.
Lemma cbrt_is_pow x r : pypow x (1 / 3) = Some r -> Rcbrt x = r.
Proof.
  unfold pypow, Rcbrt. destruct (Rlt_dec 0 x); [intros H; injection H as <-; reflexivity|].
  assert (N : (1 / 3)%R <> IZR (Int_part (1 / 3))).
  { intros E. assert (0 < IZR (Int_part (1 / 3)) < 1)%R as (A & B) by (rewrite <- E; lra). apply lt_IZR in A. apply lt_IZR in B. lia. }
  destruct (Req_EM_T (1 / 3) (IZR (Int_part (1 / 3)))); [contradiction|]. destruct (Req_EM_T x 0); [|discriminate].
  destruct (Rlt_dec 0 (1 / 3)); [intros H; injection H as <-; reflexivity|discriminate].
Qed.
Lemma rooted_eval I rho e e' : rooted e e' -> forall w, eval I rho e = Some w -> eval I rho e' = Some w.
Proof.
  assert (L1 : forall f a a' w, (forall w, a = Some w -> a' = Some w) -> lift1 f a = Some w -> lift1 f a' = Some w).
  { intros f a a' w H. destruct a as [x|]; [|discriminate]. rewrite (H x eq_refl). auto. }
  assert (L2 : forall f a a' b b' w, (forall w, a = Some w -> a' = Some w) -> (forall w, b = Some w -> b' = Some w) -> lift2 f a b = Some w -> lift2 f a' b' = Some w).
  { intros f a a' b b' w H H'. destruct a as [x|]; [|discriminate]. rewrite (H x eq_refl). destruct b as [y|]; [|destruct x; discriminate]. rewrite (H' y eq_refl). auto. }
  induction 1 as [b| | | | | | | | | | | | | | | |]; intros w; cbn [eval]; auto; try (apply L1; assumption); try (apply L2; assumption).
  - destruct (eval I rho b) as [[x|]|]; cbn; try discriminate.
    destruct (Req_EM_T (Q2R 3) 0); [discriminate|]. cbn [lift2]. replace (Q2R 1 / Q2R 3)%R with (1 / 3)%R by (unfold Q2R; cbn; lra).
    destruct (pypow x (1 / 3)) eqn:E; [|discriminate]. rewrite (cbrt_is_pow _ _ E). auto.
  - destruct (eval I rho a) as [[x|]|]; try discriminate. rewrite (IHrooted1 _ eq_refl). destruct (eval I rho b) as [[y|]|]; try discriminate. rewrite (IHrooted2 _ eq_refl). auto.
  - destruct (eval I rho a) as [[|x]|]; try discriminate. rewrite (IHrooted1 _ eq_refl). destruct (eval I rho b) as [[|y]|]; try discriminate. rewrite (IHrooted2 _ eq_refl). auto.
  - destruct (eval I rho a) as [[|x]|]; try discriminate. rewrite (IHrooted1 _ eq_refl). destruct (eval I rho b) as [[|y]|]; try discriminate. rewrite (IHrooted2 _ eq_refl). auto.
  - destruct (eval I rho c) as [[|[]]|]; try discriminate; rewrite (IHrooted1 _ eq_refl); apply L1; assumption.
  - destruct (eval I rho a) as [[x|]|]; try discriminate. rewrite (IHrooted1 _ eq_refl). destruct (eval I rho b) as [[y|]|]; try discriminate. rewrite (IHrooted2 _ eq_refl).
    destruct (eval I rho c) as [[z|]|]; try discriminate. rewrite (IHrooted3 _ eq_refl). auto.
Qed.
