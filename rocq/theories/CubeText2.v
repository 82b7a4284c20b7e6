(** Rules 7 and 8 of [post_process] (/repo/gen_repo/impl/gen_py.py:32-37) on a line with one cube
    root: the line they produce, and its value. *)
From Coq Require Import Strings.Byte List Bool NArith ZArith QArith Lia PeanoNat.
From Verif Require Import Bytes Syntax Parser PostProcess PostFast Semantics Literals LiteralsThm ParserThm CubeRoots CubeText.
Import ListNotations.

(** ** Where the suffix matches *)
Definition root_at (u s : bstr) : Prop := exists w r, s = u +++ w /\ pmatch cube_root_suffix w = Some r.
Definition one_root (s : bstr) : Prop := forall u u', root_at u s -> root_at u' s -> u = u'.
(** The text the pattern matches. *)
Definition matched (c1 c2 : byte) : bstr := " ** (0" +++ bcons c1 ("1e1 / 0" +++ bcons c2 "3e1)").
Lemma pm_lit b p s r : pmatch (Lit b :: p) s = Some r -> exists s', s = bcons b s' /\ pmatch p s' = Some r.
Proof. destruct s as [|c s]; [discriminate|]. cbn [pmatch]. destruct (Byte.eqb b c) eqn:E; [|discriminate]. apply byte_eqb_eq in E. subst c. eauto. Qed.
Lemma pm_any p s r : pmatch (Any :: p) s = Some r -> exists c s', s = bcons c s' /\ pmatch p s' = Some r.
Proof. destruct s as [|c s]; [discriminate|]. cbn [pmatch]. destruct (Byte.eqb c "010"); [discriminate|]. eauto. Qed.
Lemma suffix_text w r : pmatch cube_root_suffix w = Some r -> exists c1 c2, w = matched c1 c2 +++ r /\ forall t, pmatch cube_root_suffix (matched c1 c2 +++ t) = Some t.
Proof.
  assert (E : cube_root_suffix = lits " ** (0" ++ Any :: lits "1e1 / 0" ++ Any :: lits "3e1)") by reflexivity.
  intros H. rewrite E in H.
  assert (P : forall p w r q, pmatch (lits p ++ q) w = Some r -> exists s', w = p +++ s' /\ pmatch q s' = Some r).
  { induction p as [|b p IH]; intros w0 r0 q0 H0; [exists w0; auto|]. cbn [lits app] in H0. apply pm_lit in H0. destruct H0 as (s' & -> & H0). destruct (IH _ _ _ H0) as (s2 & -> & H2). exists s2. auto. }
  destruct (P _ _ _ _ H) as (s1 & -> & H1). clear H. assert (H : exists c s', s1 = bcons c s' /\ Byte.eqb c "010" = false /\ pmatch (lits "1e1 / 0" ++ Any :: lits "3e1)") s' = Some r).
  { destruct s1 as [|c s1]; [discriminate|]. cbn [pmatch] in H1. destruct (Byte.eqb c "010") eqn:N; [discriminate|]. eauto. }
  destruct H as (c1 & s2 & -> & N1 & H2). destruct (P _ _ _ _ H2) as (s3 & -> & H3). clear H1 H2.
  assert (H : exists c s', s3 = bcons c s' /\ Byte.eqb c "010" = false /\ pmatch (lits "3e1)" ++ []) s' = Some r).
  { destruct s3 as [|c s3]; [discriminate|]. cbn [pmatch] in H3. destruct (Byte.eqb c "010") eqn:N; [discriminate|]. rewrite app_nil_r. eauto. }
  destruct H as (c2 & s4 & -> & N2 & H4). destruct (P _ _ _ _ H4) as (s5 & -> & H5). injection H5 as <-.
  exists c1, c2. split; [reflexivity|]. intros t. rewrite E. unfold matched.
  assert (C : forall p s q, pmatch (lits p ++ q) (p +++ s) = pmatch q s).
  { induction p as [|b p IH]; intros s q; [reflexivity|]. cbn [lits app bapp pmatch]. rewrite byte_eqb_refl. apply IH. }
  rewrite bapp_assoc, C. cbn [bapp pmatch]. rewrite N1.
  pose proof (C "1e1 / 0"%b (bcons c2 ("3e1)" +++ t)) (Any :: lits "3e1)")) as C2. cbn [bapp] in C2. cbn [bapp]. rewrite C2. cbn [pmatch]. rewrite N2.
  pose proof (C "3e1)"%b t []) as C3. rewrite app_nil_r in C3. exact C3.
Qed.
Lemma root_at_text u s : root_at u s -> exists c1 c2 r, s = u +++ matched c1 c2 +++ r /\ forall v t, root_at v (v +++ matched c1 c2 +++ t).
Proof. intros (w & r & -> & H). destruct (suffix_text w r H) as (c1 & c2 & -> & P). exists c1, c2, r. split; [reflexivity|]. intros v t. exists (matched c1 c2 +++ t), t. auto. Qed.
(** A piece of text and a character at a given place. *)
Lemma bapp_cons_cases x c y : forall u m r, u +++ m +++ r = x +++ bcons c y ->
  (exists z, x = u +++ m +++ z /\ r = z +++ bcons c y) \/ (exists z, u = x +++ bcons c z /\ y = z +++ m +++ r) \/ (exists m1 m2, m = m1 +++ bcons c m2 /\ x = u +++ m1 /\ y = m2 +++ r).
Proof.
  induction x as [|b x IH]; intros u m r E.
  - destruct u as [|a u]; [|injection E as -> <-; right; left; exists u; auto]. destruct m as [|a m]; [left; exists bnil; auto|].
    injection E as -> <-. right. right. exists bnil, m. auto.
  - destruct u as [|a u].
    + destruct m as [|a m]; [left; exists (bcons b x); auto|]. cbn in E. injection E as -> E.
      destruct (IH bnil m r E) as [(z & -> & ->)|[(z & H & ->)|(m1 & m2 & -> & -> & ->)]].
      * left. exists z. auto.
      * destruct x; discriminate H.
      * right. right. exists (bcons b m1), m2. auto.
    + injection E as -> E. destruct (IH u m r E) as [(z & -> & ->)|[(z & -> & ->)|(m1 & m2 & -> & -> & ->)]].
      * left. exists z. auto.
      * right. left. exists z. auto.
      * right. right. exists m1, m2. auto.
Qed.
(** Only the two free characters of the match can be a letter or, before its end, a closing
    parenthesis. *)
Lemma matched_inside c1 c2 m1 c m2 : matched c1 c2 = m1 +++ bcons c m2 -> (c = "j" \/ c = ")")%byte ->
  (exists t, m2 = bcons "1" t) \/ (exists t, m2 = bcons "3" t) \/ (m2 = bnil /\ c = ")"%byte).
Proof.
  intros E Hc. unfold matched in E. cbn [bapp] in E.
  do 19 (destruct m1 as [|? m1]; cbn [bapp] in E; [injection E as E0 E; subst; first [left; eexists; reflexivity | right; left; eexists; reflexivity | right; right; split; reflexivity | (exfalso; destruct Hc; discriminate)]|injection E as _ E]).
  destruct m1; discriminate.
Qed.

(** ** The parenthesised base *)
Lemma last_inj x c y d : x +++ bcons c bnil = y +++ bcons d bnil -> x = y /\ c = d.
Proof.
  revert y. induction x as [|a x IH]; intros [|b y] E; cbn in E.
  - injection E as ->. auto.
  - injection E as _ E. destruct y; discriminate E.
  - injection E as _ E. destruct x; discriminate E.
  - injection E as E0 E. destruct (IH y E) as (-> & ->). subst. auto.
Qed.
Lemma balanced_spec t : forall d x w, balanced d t = Some (x, w) -> exists g, x = g +++ ")"%b /\ tdepth d g = Some 0%nat /\ t = x +++ w.
Proof.
  induction t as [|b t IH]; intros d x w H; [discriminate|]. cbn [balanced] in H. destruct (Byte.eqb b ")") eqn:E.
  - apply byte_eqb_eq in E. subst b. destruct d as [|d]; [injection H as <- <-; exists bnil; auto|].
    destruct (balanced d t) as [[x' w']|] eqn:B; [|discriminate]. injection H as <- <-. destruct (IH _ _ _ B) as (g & -> & D & ->). exists (bcons ")" g). auto.
  - destruct (balanced (if Byte.eqb b "(" then S d else d) t) as [[x' w']|] eqn:B; [|discriminate]. injection H as <- <-. destruct (IH _ _ _ B) as (g & -> & D & ->).
    exists (bcons b g). split; [reflexivity|]. split; [|reflexivity]. cbn [tdepth]. rewrite E. exact D.
Qed.
Lemma balanced_intro g : forall d w, tdepth d g = Some 0%nat -> balanced d (g +++ bcons ")" w) = Some (g +++ ")"%b, w).
Proof.
  induction g as [|b g IH]; intros d w H; [injection H as ->; reflexivity|]. cbn [tdepth bapp] in *. cbn [balanced]. destruct (Byte.eqb b ")").
  - destruct d; [discriminate|]. rewrite (IH _ _ H). reflexivity.
  - rewrite (IH _ _ H). reflexivity.
Qed.
Definition base_at (s p g w post : bstr) : Prop := s = p +++ "(" +++ g +++ ")" +++ w /\ tdepth 0 g = Some 0%nat /\ pmatch cube_root_suffix w = Some post.
Lemma cbrt_paren_sound s : forall r, cbrt_paren s = Some r -> exists p g w post, base_at s p g w post /\ r = p +++ "jnp.cbrt(" +++ g +++ ")" +++ post.
Proof.
  induction s as [|b s IH]; intros r H; [discriminate|]. cbn [cbrt_paren] in H. destruct (cbrt_paren s) as [r'|] eqn:E.
  - injection H as <-. destruct (IH _ eq_refl) as (p & g & w & post & (-> & D & M) & ->). exists (bcons b p), g, w, post. split; [split; [reflexivity|auto]|reflexivity].
  - destruct (Byte.eqb b "(") eqn:Eb; [|discriminate]. apply byte_eqb_eq in Eb. subst b. destruct (balanced 0 s) as [[x w]|] eqn:B; [|discriminate].
    destruct (pmatch cube_root_suffix w) as [post|] eqn:M; [|discriminate]. injection H as <-. destruct (balanced_spec _ _ _ _ B) as (g & -> & D & ->).
    exists bnil, g, w, post. split; [split; [rewrite bapp_assoc; reflexivity|auto]|]. rewrite bapp_assoc. reflexivity.
Qed.
Lemma cbrt_paren_some s p g w post : base_at s p g w post -> cbrt_paren s <> None.
Proof.
  revert s. induction p as [|b p IH]; intros s (-> & D & M); cbn [bapp cbrt_paren].
  - destruct (cbrt_paren (g +++ bcons ")" w)); [discriminate|]. rewrite (balanced_intro g 0 w D), M. discriminate.
  - specialize (IH _ (conj eq_refl (conj D M))). cbn [bapp] in IH. destruct (cbrt_paren (p +++ bcons "(" (g +++ bcons ")" w))); [discriminate|congruence].
Qed.
(** The group that ends at a given place is unique. *)
Lemma group_unique p g p' g' : tdepth 0 g = Some 0%nat -> tdepth 0 g' = Some 0%nat -> p +++ bcons "(" g = p' +++ bcons "(" g' -> p = p' /\ g = g'.
Proof.
  intros D D'. assert (X : forall c, g = c +++ bcons "(" g' -> False).
  { intros c ->. rewrite tdepth_app in D. destruct (tdepth 0 c) as [k|]; [|discriminate]. cbn [tdepth] in D. change (tdepth (S k) g' = Some 0%nat) in D.
    pose proof (tdepth_plus g' 0 0 (S k) D') as H. cbn in H. rewrite H in D. discriminate. }
  assert (X' : forall c, g' = c +++ bcons "(" g -> False).
  { intros c ->. rewrite tdepth_app in D'. destruct (tdepth 0 c) as [k|]; [|discriminate]. cbn [tdepth] in D'. change (tdepth (S k) g = Some 0%nat) in D'.
    pose proof (tdepth_plus g 0 0 (S k) D) as H. cbn in H. rewrite H in D'. discriminate. }
  revert p'. induction p as [|b p IH]; intros [|b' p'] E; cbn in E.
  - injection E as ->. auto.
  - injection E as _ E. elim (X _ E).
  - injection E as _ E. symmetry in E. elim (X' _ E).
  - injection E as -> E. destruct (IH _ E) as (-> & ->). auto.
Qed.
Lemma root_of_base s p g w post : base_at s p g w post -> root_at (p +++ "(" +++ g +++ ")"%b) s.
Proof. intros (-> & D & M). exists w, post. split; [rewrite !bapp_assoc; reflexivity|exact M]. Qed.
Theorem rule7_line p g w post s : base_at s p g w post -> one_root s -> rule_cbrt_paren s = p +++ "jnp.cbrt(" +++ g +++ ")" +++ post.
Proof.
  intros B O. unfold rule_cbrt_paren. destruct (cbrt_paren s) as [r|] eqn:E; [|elim (cbrt_paren_some _ _ _ _ _ B E)].
  destruct (cbrt_paren_sound _ _ E) as (p' & g' & w' & post' & B' & ->).
  pose proof (O _ _ (root_of_base _ _ _ _ _ B) (root_of_base _ _ _ _ _ B')) as U.
  assert (U2 : (p +++ bcons "(" g) +++ ")"%b = (p' +++ bcons "(" g') +++ ")"%b) by (rewrite !bapp_assoc; exact U).
  apply last_inj in U2. destruct U2 as (U2 & _). destruct B as (Es & D & M), B' as (Es' & D' & M'). destruct (group_unique _ _ _ _ D D' U2) as (<- & <-).
  rewrite Es in Es'. apply bapp_inj_l in Es'. injection Es' as Es'. apply bapp_inj_l in Es'. injection Es' as <-. rewrite M in M'. injection M' as <-. reflexivity.
Qed.
Lemma split_none s : (forall u, ~ root_at u s) -> split_last_suffix s = None.
Proof.
  induction s as [|b s IH]; intros H; [reflexivity|]. cbn [split_last_suffix]. rewrite IH.
  - destruct (pmatch cube_root_suffix (bcons b s)) eqn:E; [|reflexivity]. elim (H bnil). exists (bcons b s), b0. auto.
  - intros u (w & r & -> & M). apply (H (bcons b u)). exists w, r. auto.
Qed.
Lemma cbrt_var_none s : (forall u, ~ root_at u s) -> cbrt_var s = None.
Proof.
  induction s as [|b s IH]; intros H; [reflexivity|]. cbn [cbrt_var].
  assert (T : forall u, ~ root_at u s) by (intros u (w & r & -> & M); apply (H (bcons b u)); exists w, r; auto).
  rewrite (IH T), (split_none s T). destruct (Byte.eqb b " "); reflexivity.
Qed.
Lemma root_cons b s u : b <> " "%byte -> root_at u (bcons b s) -> exists u', u = bcons b u' /\ root_at u' s.
Proof.
  intros N (w & r & E & M). destruct u as [|a u].
  - exfalso. cbn in E. destruct (suffix_text _ _ M) as (c1 & c2 & Ew & _). rewrite Ew in E. injection E as E _. congruence.
  - cbn in E. injection E as -> ->. exists u. split; [reflexivity|]. exists w, r. auto.
Qed.
(** No cube root is left on the line. *)
Lemma no_root_left p g post s w : base_at s p g w post -> one_root s -> starts is_digit post = false ->
  forall u, ~ root_at u (p +++ "jnp.cbrt(" +++ g +++ ")" +++ post).
Proof.
  intros B O Hp u Hu. pose proof (root_of_base _ _ _ _ _ B) as R0. destruct B as (Es & D & M).
  assert (Out : forall u', root_at u' s -> u' = p +++ "(" +++ g +++ ")"%b) by (intros u' H; apply (O _ _ H R0)).
  destruct (root_at_text _ _ Hu) as (c1 & c2 & r & E & T). cbn [bapp] in E. symmetry in E. destruct (bapp_cons_cases _ _ _ _ _ _ E) as [(z & Ez & _)|[(z & Ez & Ey)|(m1 & m2 & Em & _ & Ey)]].
  - (* inside the text before *)
    assert (H : root_at u s) by (rewrite Es, Ez, !bapp_assoc; apply T). apply Out in H. apply (f_equal blen) in H. rewrite Ez, !blen_app in H. cbn in H. lia.
  - assert (H : root_at z ("np.cbrt(" +++ g +++ ")" +++ post)).
    { cbn [bapp] in *. rewrite Ey. apply T. }
    clear T E Hu. do 8 (cbn [bapp] in H; apply root_cons in H; [|discriminate]; destruct H as (? & _ & H)).
    clear z Ez Ey u. rename x6 into z. destruct (root_at_text _ _ H) as (d1 & d2 & q & E & T). cbn [bapp] in E. symmetry in E.
    destruct (bapp_cons_cases _ _ _ _ _ _ E) as [(y & Ey & _)|[(y & Ey & Eq)|(m1 & m2 & Em & Eg & Ey)]].
    + (* inside the base *)
      assert (H' : root_at (p +++ bcons "(" z) s). { rewrite Es, Ey. pose proof (T (p +++ bcons "(" z) (y +++ bcons ")" w)) as H'. rewrite !bapp_assoc in H'. cbn [bapp] in *. rewrite !bapp_assoc. exact H'. }
      apply Out in H'. apply (f_equal blen) in H'. rewrite Ey in H'. cbn [bapp] in H'. rewrite !blen_app in H'. cbn [blen] in H'. rewrite !blen_app in H'. cbn in H'. lia.
    + (* inside the text behind *)
      destruct (suffix_text _ _ M) as (e1 & e2 & Ew & _).
      assert (H' : root_at (p +++ "(" +++ g +++ ")" +++ matched e1 e2 +++ y) s).
      { pose proof (T (p +++ "(" +++ g +++ ")" +++ matched e1 e2 +++ y) q) as H'. rewrite Es, Ew, Eq. rewrite !bapp_assoc in H'. exact H'. }
      apply Out in H'. apply (f_equal blen) in H'. rewrite !blen_app in H'. cbn in H'. lia.
    + (* across the end of the base *)
      destruct (matched_inside _ _ _ _ _ Em (or_intror eq_refl)) as [(t & ->)|[(t & ->)|(-> & _)]]; [rewrite Ey in Hp; discriminate|rewrite Ey in Hp; discriminate|].
      assert (H' : root_at (p +++ bcons "(" z) s). { pose proof (T (p +++ bcons "(" z) w) as H'. rewrite Es, Eg. rewrite Em, !bapp_assoc in H'. cbn [bapp] in *. rewrite !bapp_assoc. rewrite ?bapp_assoc in H'. exact H'. }
      apply Out in H'. apply (f_equal blen) in H'. rewrite Eg in H'. cbn [bapp] in H'. rewrite !blen_app in H'. cbn [blen] in H'. rewrite !blen_app in H'. apply (f_equal blen) in Em. rewrite blen_app in Em. cbn in Em, H'. lia.
  - destruct (matched_inside _ _ _ _ _ Em (or_introl eq_refl)) as [(t & ->)|[(t & ->)|(-> & F)]]; discriminate.
Qed.
Theorem rules_paren p g post : tdepth 0 g = Some 0%nat -> starts is_digit post = false ->
  let s := p +++ "(" +++ g +++ ")" +++ " ** (0.1e1 / 0.3e1)" +++ post in
  one_root s -> rule_cbrt_var (rule_cbrt_paren s) = p +++ "jnp.cbrt(" +++ g +++ ")" +++ post.
Proof.
  intros D Hp s O. assert (B : base_at s p g (" ** (0.1e1 / 0.3e1)" +++ post) post) by (split; [reflexivity|split; [exact D|reflexivity]]).
  rewrite (rule7_line _ _ _ _ _ B O). unfold rule_cbrt_var. rewrite cbrt_var_none; [reflexivity|]. apply (no_root_left _ _ _ _ _ B O Hp).
Qed.

(** ** The base without parentheses *)
Definition solid (b : byte) : bool := negb (Byte.eqb b " ").
Lemma split_sound s : forall x r, split_last_suffix s = Some (x, r) -> exists w, s = x +++ w /\ pmatch cube_root_suffix w = Some r.
Proof.
  induction s as [|b s IH]; intros x r H; [discriminate|]. cbn [split_last_suffix] in H. destruct (split_last_suffix s) as [[x' r']|] eqn:E.
  - injection H as <- <-. destruct (IH _ _ eq_refl) as (w & -> & M). exists w. auto.
  - destruct (pmatch cube_root_suffix (bcons b s)) eqn:M; [|discriminate]. injection H as <- <-. exists (bcons b s). auto.
Qed.
Lemma split_some s u : root_at u s -> split_last_suffix s <> None.
Proof.
  revert s. induction u as [|a u IH]; intros s (w & r & -> & M); cbn [bapp].
  - destruct w as [|b w]; [discriminate|]. cbn [split_last_suffix]. destruct (split_last_suffix w) as [[? ?]|]; [discriminate|]. rewrite M. discriminate.
  - cbn [split_last_suffix]. specialize (IH (u +++ w) (ex_intro _ w (ex_intro _ r (conj eq_refl M)))). destruct (split_last_suffix (u +++ w)) as [[? ?]|]; [discriminate|congruence].
Qed.
Lemma cbrt_var_some p : forall s u, root_at u s -> cbrt_var (p +++ bcons " " s) <> None.
Proof.
  induction p as [|b p IH]; intros s u H; cbn [bapp cbrt_var].
  - destruct (cbrt_var s); [discriminate|]. rewrite byte_eqb_refl. pose proof (split_some s u H). destruct (split_last_suffix s) as [[? ?]|]; [discriminate|congruence].
  - specialize (IH s u H). destruct (cbrt_var (p +++ bcons " " s)); [discriminate|congruence].
Qed.
Lemma solid_or x : all_b solid x = true \/ exists a b, x = a +++ bcons " " b.
Proof.
  induction x as [|c x IH]; [left; reflexivity|]. destruct (Byte.eqb c " ") eqn:E; [apply byte_eqb_eq in E; subst c; right; exists bnil, x; reflexivity|].
  destruct IH as [IH|(a & b & ->)]; [left; cbn [all_b]; unfold solid at 1; rewrite E, IH; reflexivity|right; exists (bcons c a), b; reflexivity].
Qed.
Lemma cbrt_var_sound s : forall r, cbrt_var s = Some r ->
  exists p x w post, s = p +++ bcons " " (x +++ w) /\ pmatch cube_root_suffix w = Some post /\ all_b solid x = true /\ r = p +++ " jnp.cbrt(" +++ x +++ ")" +++ post.
Proof.
  induction s as [|b s IH]; intros r H; [discriminate|]. cbn [cbrt_var] in H. destruct (cbrt_var s) as [r'|] eqn:E.
  - injection H as <-. destruct (IH _ eq_refl) as (p & x & w & post & -> & M & S0 & ->). exists (bcons b p), x, w, post. auto.
  - destruct (Byte.eqb b " ") eqn:Eb; [|discriminate]. apply byte_eqb_eq in Eb. subst b. destruct (split_last_suffix s) as [[x post]|] eqn:Sp; [|discriminate]. injection H as <-.
    destruct (split_sound _ _ _ Sp) as (w & -> & M). exists bnil, x, w, post. split; [reflexivity|]. split; [exact M|]. split; [|reflexivity].
    destruct (solid_or x) as [S0|(a & c & ->)]; [exact S0|]. exfalso. rewrite bapp_assoc in E. cbn [bapp] in E. apply (cbrt_var_some a (c +++ w) c) in E; [exact E|]. exists w, post. auto.
Qed.
Lemma word_unique p x p' x' : all_b solid x = true -> all_b solid x' = true -> p +++ bcons " " x = p' +++ bcons " " x' -> p = p' /\ x = x'.
Proof.
  intros S1 S2. assert (N : forall y c z, all_b solid y = true -> y = c +++ bcons " " z -> False) by (intros y c z A ->; rewrite all_b_app in A; apply andb_prop in A; destruct A as (_ & A); discriminate A).
  revert p'. induction p as [|b p IH]; intros [|b' p'] E; cbn in E.
  - injection E as ->. auto.
  - injection E as _ E. elim (N _ _ _ S1 E).
  - injection E as _ E. symmetry in E. elim (N _ _ _ S2 E).
  - injection E as -> E. destruct (IH _ E) as (-> & ->). auto.
Qed.
Theorem rules_word p x post : x <> bnil -> all_b id_cont x = true ->
  let s := p +++ " " +++ x +++ " ** (0.1e1 / 0.3e1)" +++ post in
  one_root s -> rule_cbrt_var (rule_cbrt_paren s) = p +++ " jnp.cbrt(" +++ x +++ ")" +++ post.
Proof.
  intros N I s O. set (w := " ** (0.1e1 / 0.3e1)" +++ post). assert (M : pmatch cube_root_suffix w = Some post) by reflexivity.
  assert (R0 : root_at (p +++ bcons " " x) s) by (exists w, post; split; [unfold s; rewrite bapp_assoc; reflexivity|exact M]).
  assert (S0 : all_b solid x = true) by (apply (all_b_imp id_cont solid); [intros b; destruct b; try discriminate; reflexivity|exact I]).
  assert (E7 : rule_cbrt_paren s = s).
  { unfold rule_cbrt_paren. destruct (cbrt_paren s) as [r|] eqn:E; [|reflexivity]. exfalso. destruct (cbrt_paren_sound _ _ E) as (p' & g & w' & post' & B & _).
    pose proof (O _ _ R0 (root_of_base _ _ _ _ _ B)) as U. destruct (snoc_case x) as [->|(y & c & ->)]; [congruence|].
    assert (U2 : (p +++ bcons " " y) +++ bcons c bnil = (p' +++ bcons "(" g) +++ bcons ")" bnil) by (rewrite !bapp_assoc; exact U).
    apply last_inj in U2. destruct U2 as (_ & ->). rewrite all_b_app in I. apply andb_prop in I. destruct I as (_ & I). discriminate I. }
  rewrite E7. unfold rule_cbrt_var. destruct (cbrt_var s) as [r|] eqn:E.
  - destruct (cbrt_var_sound _ _ E) as (p' & x' & w' & post' & Es & M' & S' & ->).
    assert (R' : root_at (p' +++ bcons " " x') s) by (exists w', post'; split; [rewrite Es, bapp_assoc; reflexivity|exact M']).
    destruct (word_unique _ _ _ _ S0 S' (O _ _ R0 R')) as (<- & <-). unfold s in Es. apply bapp_inj_l in Es. cbn [bapp] in Es. injection Es as Es. apply bapp_inj_l in Es. rewrite <- Es in M'. injection M' as <-. reflexivity.
  - exfalso. apply (cbrt_var_some p (x +++ w) x) in E; [exact E|]. exists w, post. auto.
Qed.

(** ** The value of the line *)
Definition no_call (p : bstr) : Prop := forall P x, tokens p <> Some (P ++ [TId x]).
Definition no_power (q : bstr) : Prop := forall Q, tokens q <> Some (TPow :: Q).
Lemma parse_line_toks v s : parse_line v s = match tokens s with Some ts => parse_toks v ts | None => None end.
Proof.
  unfold parse_line, parse_toks, tokens. destruct (lex (S (blen s)) s); reflexivity.
Qed.
Lemma suffix_tokens post : tokens (" ** (0.1e1 / 0.3e1)" +++ post) = match tokens post with Some Q => Some (third ++ Q) | None => None end.
Proof.
  assert (L : forall s, tokens (bcons " " s) = tokens s) by (intros s; rewrite tokens_step; reflexivity).
  assert (T : forall b t s r, step b s = Token t r -> tokens (bcons b s) = match tokens r with Some l => Some (t :: l) | None => None end) by (intros b t s r E; rewrite tokens_step, E; reflexivity).
  cbn [bapp]. rewrite L.
  rewrite (T _ TPow _ (" (0.1e1 / 0.3e1)" +++ post)) by reflexivity. cbn [bapp]. rewrite L.
  rewrite (T _ TLp _ ("0.1e1 / 0.3e1)" +++ post)) by reflexivity. cbn [bapp].
  rewrite (T _ (TNum 1) _ (" / 0.3e1)" +++ post)) by reflexivity. cbn [bapp]. rewrite L.
  rewrite (T _ TSlash _ (" 0.3e1)" +++ post)) by reflexivity. cbn [bapp]. rewrite L.
  rewrite (T _ (TNum 3) _ (")" +++ post)) by reflexivity. cbn [bapp].
  rewrite (T _ TRp _ post) by reflexivity. destruct (tokens post); reflexivity.
Qed.
Lemma tokens_lp s : tokens (bcons "(" s) = match tokens s with Some l => Some (TLp :: l) | None => None end. Proof. rewrite tokens_step. reflexivity. Qed.
Lemma tokens_rp s : tokens (bcons ")" s) = match tokens s with Some l => Some (TRp :: l) | None => None end. Proof. rewrite tokens_step. reflexivity. Qed.
Lemma tokens_cbrt s : tokens ("jnp.cbrt(" +++ s) = match tokens s with Some l => Some (TId cbrt_name :: TLp :: l) | None => None end.
Proof.
  cbn [bapp]. rewrite tokens_step. assert (step "j" (bcons "n" (bcons "p" (bcons "." (bcons "c" (bcons "b" (bcons "r" (bcons "t" (bcons "(" s)))))))) = Token (TId cbrt_name) (bcons "(" s)) as -> by reflexivity.
  rewrite tokens_lp. destruct (tokens s); reflexivity. Qed.
Theorem cube_root_paren v p g post x e :
  v_prim v "jnp.cbrt" = Some (P1 FCbrt) -> cut p -> no_call p -> tdepth 0 g = Some 0%nat -> starts is_digit post = false -> no_power post ->
  let s := p +++ "(" +++ g +++ ")" +++ " ** (0.1e1 / 0.3e1)" +++ post in
  one_root s -> parse_line v s = Some (x, e) ->
  exists e', parse_line v (rule_cbrt_var (rule_cbrt_paren s)) = Some (x, e') /\ forall I rho w, eval I rho e = Some w -> eval I rho e' = Some w.
Proof.
  intros Hv Hp Hc D Hd Hq s O H. pose proof (rules_paren p g post D Hd O) as E0. fold s in E0. rewrite E0. clear E0. unfold s in H. clear O. clear s. rewrite parse_line_toks in H. rewrite parse_line_toks.
  rewrite (tokens_app _ p _ (Nat.le_refl _) Hp) in H. rewrite (tokens_app _ p _ (Nat.le_refl _) Hp). destruct (tokens p) as [P|] eqn:EP; [|discriminate].
  assert (K : calm P) by (intros C' y ->; apply (Hc C' y); exact EP).
  cbn [bapp] in H. rewrite tokens_lp in H. rewrite (tokens_stop _ g _ (Nat.le_refl _)) in H by reflexivity. rewrite tokens_rp in H.
  change (tokens (bcons " " _)) with (tokens (" ** (0.1e1 / 0.3e1)" +++ post)) in H. rewrite suffix_tokens in H.
  rewrite tokens_cbrt. rewrite (tokens_stop _ g _ (Nat.le_refl _)) by reflexivity. cbn [bapp]. rewrite tokens_rp.
  destruct (tokens g) as [G|] eqn:EG; [|discriminate]. destruct (tokens post) as [Q|] eqn:EQ; [|discriminate].
  assert (B : balanced_toks G) by (unfold balanced_toks; rewrite (tokens_depth _ g G 0 (Nat.le_refl _) EG); exact D).
  assert (HQ : head_pow Q = false) by (destruct Q as [|[] Q]; try reflexivity; elim (Hq Q EQ)).
  destruct (swap_line v (TLp :: G ++ TRp :: third) (TId cbrt_name :: TLp :: G ++ [TRp]) Q P x e) as (e' & R & H').
  - eauto.
  - destruct G as [|t G]; [exists TLp, TRp, third; auto|]. exists TLp, t, (G ++ TRp :: third). auto.
  - apply (paren_base v Hv G Q B HQ).
  - exact K.
  - cbn [app]. rewrite <- app_assoc. exact H.
  - exists e'. split; [|intros I rho w; apply (rooted_eval I rho e e' R)]. cbn [app] in H'. rewrite <- app_assoc in H'. exact H'.
Qed.
Theorem cube_root_word v p b t post x e :
  v_prim v "jnp.cbrt" = Some (P1 FCbrt) -> no_call (p +++ " "%b) -> all_b id_cont b = true -> tokens b = Some [t] -> no_power post ->
  let s := p +++ " " +++ b +++ " ** (0.1e1 / 0.3e1)" +++ post in
  one_root s -> parse_line v s = Some (x, e) ->
  exists e', parse_line v (rule_cbrt_var (rule_cbrt_paren s)) = Some (x, e') /\ forall I rho w, eval I rho e = Some w -> eval I rho e' = Some w.
Proof.
  intros Hv Hc Hb Ht Hq s O H. assert (N : b <> bnil) by (intros ->; discriminate Ht). pose proof (rules_word p b post N Hb O) as E0. fold s in E0. rewrite E0. clear E0. unfold s in H. clear O. clear s. rewrite parse_line_toks in H. rewrite parse_line_toks.
  assert (Cp : cut (p +++ " "%b)).
  { right. right. clear. induction p as [|c p IH]; [reflexivity|]. cbn [bapp sep_end]. destruct p as [|d p]; [reflexivity|]. cbn [bapp] in *. destruct (p +++ " "%b) eqn:E; [destruct p; discriminate E|exact IH]. }
  replace (p +++ " " +++ b +++ " ** (0.1e1 / 0.3e1)" +++ post) with ((p +++ " "%b) +++ b +++ " ** (0.1e1 / 0.3e1)" +++ post) in H by (rewrite !bapp_assoc; reflexivity).
  replace (p +++ " jnp.cbrt(" +++ b +++ ")" +++ post) with ((p +++ " "%b) +++ "jnp.cbrt(" +++ b +++ ")" +++ post) by (rewrite !bapp_assoc; reflexivity).
  rewrite (tokens_app _ _ _ (Nat.le_refl _) Cp) in H. rewrite (tokens_app _ _ _ (Nat.le_refl _) Cp). destruct (tokens (p +++ " "%b)) as [P|] eqn:EP; [|discriminate].
  assert (K : calm P) by (intros C' y ->; apply (Hc C' y); exact EP).
  rewrite (tokens_stop _ b (" ** (0.1e1 / 0.3e1)" +++ post) (Nat.le_refl _)) in H by reflexivity. rewrite suffix_tokens in H.
  rewrite tokens_cbrt. rewrite (tokens_stop _ b _ (Nat.le_refl _)) by reflexivity. cbn [bapp]. rewrite tokens_rp. rewrite Ht in H. rewrite Ht.
  destruct (tokens post) as [Q|] eqn:EQ; [|discriminate]. assert (HQ : head_pow Q = false) by (destruct Q as [|[] Q]; try reflexivity; elim (Hq Q EQ)).
  assert (Bt : base_tok t).
  { destruct b as [|c b]; [congruence|]. rewrite tokens_step in Ht. cbn [all_b] in Hb. apply andb_prop in Hb. destruct Hb as (Hb & _).
    unfold step in Ht. destruct (is_space c) eqn:Sp; [destruct c; try discriminate Sp; discriminate Hb|]. destruct (is_digit c); [destruct (lex_num (bcons c b)); destruct (tokens b0); [injection Ht as <- _; exact I|discriminate]|].
    destruct (is_alpha c); [destruct (span id_cont (bcons c b)); destruct (tokens b1); [injection Ht as <- _; exact I|discriminate]|]. destruct c; try discriminate Hb; discriminate Ht. }
  destruct (swap_line v (t :: third) (TId cbrt_name :: TLp :: t :: [TRp]) Q P x e) as (e' & R & H').
  - eauto.
  - exists t, TPow, (tl third). split; [reflexivity|]. destruct t; try elim Bt; try exact I. discriminate.
  - apply (single_base v Hv t Q Bt HQ).
  - exact K.
  - exact H.
  - exists e'. split; [exact H'|intros I rho w; apply (rooted_eval I rho e e' R)].
Qed.

(** Number of places where the suffix matches. *)
Section Count.
Context (m : bstr -> option bstr).
Fixpoint places (s : bstr) : nat :=
  (match m s with Some _ => 1 | None => 0 end + match s with bnil => 0 | bcons _ s => places s end)%nat.
Definition place (u s : bstr) : Prop := exists w r, s = u +++ w /\ m w = Some r.
Lemma place_cons a v b s : place (bcons a v) (bcons b s) -> a = b /\ place v s.
Proof. intros (w & r & E & M). cbn [bapp] in E. injection E as -> ->. split; [reflexivity|]. exists w, r. split; [reflexivity|exact M]. Qed.
Lemma place_nil s : place bnil s -> m s <> None.
Proof. intros (w & r & E & M). cbn [bapp] in E. subst w. congruence. Qed.
Lemma places_none s : places s = 0%nat -> forall u, ~ place u s.
Proof.
  induction s as [|b s IH]; intros H u U; cbn [places] in H.
  - destruct u as [|a u]; [|destruct U as (w & r & E & _); discriminate E]. apply place_nil in U. destruct (m bnil); [discriminate H|congruence].
  - destruct u as [|a u]; [apply place_nil in U; destruct (m (bcons b s)); [discriminate H|congruence]|].
    apply place_cons in U. destruct U as (_ & U). apply (IH ltac:(lia) u U).
Qed.
Lemma places_one s : (places s <= 1)%nat -> forall u u', place u s -> place u' s -> u = u'.
Proof.
  induction s as [|b s IH]; intros H u u' U U'.
  - destruct u as [|a u]; [|destruct U as (w & r & E & _); discriminate E]. destruct u' as [|a u']; [reflexivity|destruct U' as (w & r & E & _); discriminate E].
  - cbn [places] in H. assert (Z : place bnil (bcons b s) -> places s = 0%nat) by (intros Z; apply place_nil in Z; destruct (m (bcons b s)); [lia|congruence]).
    destruct u as [|a u], u' as [|a' u']; [reflexivity| | |].
    + apply place_cons in U'. elim (places_none s (Z U) u' (proj2 U')).
    + apply place_cons in U. elim (places_none s (Z U') u (proj2 U)).
    + apply place_cons in U. apply place_cons in U'. destruct U as (-> & U), U' as (-> & U'). f_equal. apply IH; [lia|exact U|exact U'].
Qed.
End Count.
Definition roots (s : bstr) : nat := places (pmatch cube_root_suffix) s.
Lemma roots_one s : (roots s <= 1)%nat -> one_root s.
Proof. exact (places_one (pmatch cube_root_suffix) s). Qed.
Theorem cube_root_paren_one v p g post x e :
  v_prim v "jnp.cbrt" = Some (P1 FCbrt) -> cut p -> no_call p -> tdepth 0 g = Some 0%nat -> starts is_digit post = false -> no_power post ->
  let s := p +++ "(" +++ g +++ ")" +++ " ** (0.1e1 / 0.3e1)" +++ post in
  roots s = 1%nat -> parse_line v s = Some (x, e) ->
  exists e', parse_line v (rule_cbrt_var (rule_cbrt_paren s)) = Some (x, e') /\ forall I rho w, eval I rho e = Some w -> eval I rho e' = Some w.
Proof. intros Hv Hp Hc D Hd Hq s O. apply cube_root_paren; auto. apply roots_one. fold s. lia. Qed.
Theorem cube_root_word_one v p b t post x e :
  v_prim v "jnp.cbrt" = Some (P1 FCbrt) -> no_call (p +++ " "%b) -> all_b id_cont b = true -> tokens b = Some [t] -> no_power post ->
  let s := p +++ " " +++ b +++ " ** (0.1e1 / 0.3e1)" +++ post in
  roots s = 1%nat -> parse_line v s = Some (x, e) ->
  exists e', parse_line v (rule_cbrt_var (rule_cbrt_paren s)) = Some (x, e') /\ forall I rho w, eval I rho e = Some w -> eval I rho e' = Some w.
Proof. intros Hv Hc Hb Ht Hq s O. apply (cube_root_word v p b t post x e); auto. apply roots_one. fold s. lia. Qed.
Lemma rules_paren_one p g post :
  tdepth 0 g = Some 0%nat -> starts is_digit post = false ->
  roots (p +++ "(" +++ g +++ ")" +++ " ** (0.1e1 / 0.3e1)" +++ post) = 1%nat ->
  rule_cbrt_var (rule_cbrt_paren (p +++ "(" +++ g +++ ")" +++ " ** (0.1e1 / 0.3e1)" +++ post)) = p +++ "jnp.cbrt(" +++ g +++ ")" +++ post.
Proof. intros D Hd O. apply rules_paren; auto. apply roots_one. lia. Qed.
Lemma rules_word_one p b post :
  b <> bnil -> all_b id_cont b = true ->
  roots (p +++ " " +++ b +++ " ** (0.1e1 / 0.3e1)" +++ post) = 1%nat ->
  rule_cbrt_var (rule_cbrt_paren (p +++ " " +++ b +++ " ** (0.1e1 / 0.3e1)" +++ post)) = p +++ " jnp.cbrt(" +++ b +++ ")" +++ post.
Proof. intros B Hb O. apply rules_word; auto. apply roots_one. lia. Qed.
Lemma cube_root_paren_value v p g post x e :
  v_prim v "jnp.cbrt" = Some (P1 FCbrt) -> cut p -> no_call p -> tdepth 0 g = Some 0%nat -> starts is_digit post = false -> no_power post ->
  roots (p +++ "(" +++ g +++ ")" +++ " ** (0.1e1 / 0.3e1)" +++ post) = 1%nat ->
  parse_line v (p +++ "(" +++ g +++ ")" +++ " ** (0.1e1 / 0.3e1)" +++ post) = Some (x, e) ->
  exists e', parse_line v (rule_cbrt_var (rule_cbrt_paren (p +++ "(" +++ g +++ ")" +++ " ** (0.1e1 / 0.3e1)" +++ post))) = Some (x, e') /\ forall I rho w, eval I rho e = Some w -> eval I rho e' = Some w.
Proof. intros Hv Hp Hc D Hd Hq O H. exact (cube_root_paren_one v p g post x e Hv Hp Hc D Hd Hq O H). Qed.
Lemma cube_root_word_value v p b t post x e :
  v_prim v "jnp.cbrt" = Some (P1 FCbrt) -> no_call (p +++ " "%b) -> all_b id_cont b = true -> tokens b = Some [t] -> no_power post ->
  roots (p +++ " " +++ b +++ " ** (0.1e1 / 0.3e1)" +++ post) = 1%nat ->
  parse_line v (p +++ " " +++ b +++ " ** (0.1e1 / 0.3e1)" +++ post) = Some (x, e) ->
  exists e', parse_line v (rule_cbrt_var (rule_cbrt_paren (p +++ " " +++ b +++ " ** (0.1e1 / 0.3e1)" +++ post))) = Some (x, e') /\ forall I rho w, eval I rho e = Some w -> eval I rho e' = Some w.
Proof.
  intros Hv Hc Hb Ht Hq O H. exact (cube_root_word_one v p b t post x e Hv Hc Hb Ht Hq O H).
Qed.
(** Lines of these shapes. *)
Lemma last_not_id (ts : list tok) l t : l = rev ts -> (exists r, l = t :: r) -> (forall x, t <> TId x) -> forall P x, Some ts <> Some (P ++ [TId x]).
Proof. intros -> (r & E) N P x H. injection H as ->. rewrite rev_app_distr in E. cbn in E. injection E as E _. exact (N x (eq_sym E)). Qed.
Lemma sample_paren_ok :
  let p := "t9 = 0.2e1 * "%b in let g := "(r0 + r1) / (t3 - 0.1e1)"%b in let post := " * t4"%b in
  v_prim jax_voc "jnp.cbrt" = Some (P1 FCbrt) /\ cut p /\ no_call p /\ tdepth 0 g = Some 0%nat /\ starts is_digit post = false /\ no_power post /\
  roots (p +++ "(" +++ g +++ ")" +++ " ** (0.1e1 / 0.3e1)" +++ post) = 1%nat /\
  exists e, parse_line jax_voc (p +++ "(" +++ g +++ ")" +++ " ** (0.1e1 / 0.3e1)" +++ post) = Some ("t9"%b, e).
Proof.
  cbv zeta. refine (conj _ (conj _ (conj _ (conj _ (conj _ (conj _ (conj _ _))))))); try (vm_compute; reflexivity).
  - right. right. reflexivity.
  - intros P x. set (l := tokens _). vm_compute in l. subst l. eapply last_not_id; [reflexivity|eexists; cbn; reflexivity|discriminate].
  - intros Q. set (l := tokens _). vm_compute in l. subst l. discriminate.
  - set (l := parse_line _ _). vm_compute in l. subst l. eexists. reflexivity.
Qed.
Lemma sample_word_ok :
  let p := "t9 ="%b in let b := "p_a_zeta_threshold"%b in let post := bnil in
  no_call (p +++ " "%b) /\ all_b id_cont b = true /\ tokens b = Some [TId b] /\ no_power post /\
  roots (p +++ " " +++ b +++ " ** (0.1e1 / 0.3e1)" +++ post) = 1%nat /\
  parse_line jax_voc (p +++ " " +++ b +++ " ** (0.1e1 / 0.3e1)" +++ post) = Some ("t9"%b, EPow (EVar b) (EDiv (ENum 1) (ENum 3))).
Proof.
  cbv zeta. refine (conj _ (conj _ (conj _ (conj _ (conj _ _))))); try (vm_compute; reflexivity).
  - intros P x. set (l := tokens _). vm_compute in l. subst l. eapply last_not_id; [reflexivity|eexists; cbn; reflexivity|discriminate].
  - intros Q. discriminate.
Qed.
(** ** Lines outside these shapes *)
From Coq Require Import Reals Lra Qreals.
Definition all_rewrites_kept : Prop := forall s x e, parse_line jax_voc s = Some (x, e) ->
  exists e', parse_line jax_voc (rule_cbrt_var (rule_cbrt_paren s)) = Some (x, e') /\ forall I rho w, eval I rho e = Some w -> eval I rho e' = Some w.
Definition no_ops : interp := {| op1 := fun _ _ => None; op2 := fun _ _ _ => None; op3 := fun _ _ _ _ => None |}.
Definition two_roots_line : bstr := "x = (a + b) ** (0.1e1 / 0.3e1) + (c) ** (0.1e1 / 0.3e1)".
Lemma two_roots_rewritten : rule_cbrt_var (rule_cbrt_paren two_roots_line) = "x = (a + jnp.cbrt(b)) + jnp.cbrt(c)"%b.
Proof. vm_compute. reflexivity. Qed.
Lemma pypow_third x : (0 < x)%R -> pypow x (1 / 3) = Some (Rpower x (1 / 3)).
Proof. intros H. unfold pypow. destruct (Rlt_dec 0 x); [reflexivity|contradiction]. Qed.
Theorem two_roots_refuted : ~ all_rewrites_kept.
Proof.
  intros H. specialize (H two_roots_line "x"%b (EAdd (EPow (EAdd (EVar "a") (EVar "b")) (EDiv (ENum 1) (ENum 3))) (EPow (EVar "c") (EDiv (ENum 1) (ENum 3)))) ltac:(vm_compute; reflexivity)).
  destruct H as (e' & E & H). rewrite two_roots_rewritten in E.
  assert (E2 : parse_line jax_voc "x = (a + jnp.cbrt(b)) + jnp.cbrt(c)" = Some ("x"%b, EAdd (EAdd (EVar "a") (EFn1 FCbrt (EVar "b"))) (EFn1 FCbrt (EVar "c")))) by (vm_compute; reflexivity).
  rewrite E2 in E. injection E as <-. specialize (H no_ops (fun _ => Some (VR 1)) (VR (Rpower 2 (1 / 3) + 1))). cbn [eval lift1 lift2 fn1_sem] in H.
  assert (T : (Q2R 1 / Q2R 3)%R = (1 / 3)%R) by (unfold Q2R; cbn; lra). destruct (Req_EM_T (Q2R 3) 0) as [Z|Z]; [unfold Q2R in Z; cbn in Z; lra|]. rewrite T in H.
  replace (1 + 1)%R with 2%R in H by lra. cbn [lift2] in H. rewrite !pypow_third in H by lra. assert (P1 : Rpower 1 (1 / 3) = 1%R) by (unfold Rpower; rewrite ln_1, Rmult_0_r; apply exp_0). rewrite P1 in H.
  specialize (H eq_refl). injection H as H. unfold Rcbrt in H. destruct (Rlt_dec 0 1); [|lra]. rewrite P1 in H.
  assert (L : (Rpower 2 (1 / 3) < Rpower 2 1)%R) by (apply Rpower_lt; lra). rewrite Rpower_1 in L by lra. lra.
Qed.
Definition call_line : bstr := "x = jnp.exp(t ** (0.1e1 / 0.3e1))".
Lemma call_rewritten : rule_cbrt_var (rule_cbrt_paren call_line) = "x = jnp.cbrt(jnp.exp(t))"%b.
Proof. vm_compute. reflexivity. Qed.
(** One cube root on the line, inside the argument of a call. *)
Theorem call_refuted : ~ forall s x e, roots s = 1%nat -> parse_line jax_voc s = Some (x, e) ->
  exists e', parse_line jax_voc (rule_cbrt_var (rule_cbrt_paren s)) = Some (x, e') /\ forall I rho w, eval I rho e = Some w -> eval I rho e' = Some w.
Proof.
  intros H. specialize (H call_line "x"%b (EFn1 FExp (EPow (EVar "t") (EDiv (ENum 1) (ENum 3)))) ltac:(vm_compute; reflexivity) ltac:(vm_compute; reflexivity)).
  destruct H as (e' & E & H). rewrite call_rewritten in E.
  assert (E2 : parse_line jax_voc "x = jnp.cbrt(jnp.exp(t))" = Some ("x"%b, EFn1 FCbrt (EFn1 FExp (EVar "t")))) by (vm_compute; reflexivity).
  rewrite E2 in E. injection E as <-. specialize (H no_ops (fun _ => Some (VR 1)) (VR (exp 1))). cbn [eval lift1 lift2 fn1_sem] in H.
  assert (T : (Q2R 1 / Q2R 3)%R = (1 / 3)%R) by (unfold Q2R; cbn; lra). destruct (Req_EM_T (Q2R 3) 0) as [Z|Z]; [unfold Q2R in Z; cbn in Z; lra|]. rewrite T in H.
  cbn [lift2] in H. rewrite !pypow_third in H by lra. assert (P1 : Rpower 1 (1 / 3) = 1%R) by (unfold Rpower; rewrite ln_1, Rmult_0_r; apply exp_0). rewrite P1 in H. cbn [lift1] in H.
  specialize (H eq_refl). injection H as H. pose proof (exp_pos 1). unfold Rcbrt in H. destruct (Rlt_dec 0 (exp 1)); [|lra]. unfold Rpower in H. rewrite ln_exp in H.
  apply exp_inv in H. lra.
Qed.
