(** A quicker way of computing [post_process]: a rule whose pattern contains a
    character (or adjacent characters) absent from the text leaves it unchanged,
    so it need not be run.  [post_fast_ok] proves the result is the same. *)
From Coq Require Import Strings.Byte List Bool NArith Lia.
From Verif Require Import Bytes Syntax Parser PostProcess.
Import ListNotations.

Fixpoint has (f : byte -> bool) (s : bstr) : bool :=
  match s with bnil => false | bcons b s => if f b then true else has f s end.
Definition special (b : byte) : bool :=
  match b with "a" | "m" | "y" | "D" => true | _ => false end%byte.
Definition is_a (b : byte) : bool := match b with "a" => true | _ => false end%byte.
Definition is_m (b : byte) : bool := match b with "m" => true | _ => false end%byte.
Definition is_y (b : byte) : bool := match b with "y" => true | _ => false end%byte.
Definition is_D (b : byte) : bool := match b with "D" => true | _ => false end%byte.
Definition is_e (b : byte) : bool := match b with "e" => true | _ => false end%byte.
Definition is_9 (b : byte) : bool := match b with "9" => true | _ => false end%byte.
Definition is_2 (b : byte) : bool := match b with "2" => true | _ => false end%byte.
Definition is_star (b : byte) : bool := match b with "*" => true | _ => false end%byte.
(** Some character satisfies [f] and the text after it satisfies [h]. *)
Fixpoint has_at (f : byte -> bool) (h : bstr -> bool) (s : bstr) : bool :=
  match s with
  | bnil => false
  | bcons b s => if f b then (if h s then true else has_at f h s) else has_at f h s
  end.
Definition starts (f : byte -> bool) (s : bstr) : bool :=
  match s with bcons b _ => f b | bnil => false end.
Definition has_0e := has_at is_zero (starts is_e).
Definition has_e0 := has_at is_e (starts is_zero).
Definition has_92 := has_at is_9 (starts is_2).
Definition has_pow := has_at is_star (bprefix "* (").

(** ** Patterns that cannot match *)
Lemma pmatch_has p s r f : pmatch p s = Some r ->
  existsb (fun c => match c with Lit b => f b | Any => false end) p = true -> has f s = true.
Proof.
  revert s; induction p as [|[a|] p IH]; intros s H E; simpl in *; [discriminate| |];
    destruct s as [|b s]; try discriminate.
  - destruct (Byte.eqb a b) eqn:Eb; [|discriminate]. apply byte_eqb_eq in Eb. subst b.
    simpl. destruct (f a); [reflexivity|]. exact (IH _ H E).
  - destruct (Byte.eqb b _); [discriminate|]. simpl. destruct (f b); [reflexivity|]. exact (IH _ H E).
Qed.
Lemma sub_fuel_none n p r s :
  (forall u v, s = u +++ v -> pmatch p v = None) -> sub_fuel n p r s = s.
Proof.
  revert s; induction n as [|n IH]; intros s H; simpl; [reflexivity|].
  rewrite (H bnil s eq_refl). destruct s as [|b s]; [reflexivity|].
  rewrite IH; [reflexivity|]. intros u v E. apply (H (bcons b u) v). simpl. congruence.
Qed.
Lemma has_app f u v : has f v = true -> has f (u +++ v) = true.
Proof. intros H. induction u as [|b u IH]; simpl; [exact H|]. destruct (f b); auto. Qed.
Lemma sub_lit_skip f p r s :
  has f s = false ->
  existsb (fun c => match c with Lit b => f b | Any => false end) p = true -> sub_lit p r s = s.
Proof.
  intros H E. apply sub_fuel_none. intros u v ->. destruct (pmatch p v) as [w|] eqn:Em; [|reflexivity].
  rewrite (has_app f u v) in H; [discriminate|]. eapply pmatch_has; eauto.
Qed.
Lemma has_weaken f g s : (forall b, f b = true -> g b = true) -> has g s = false -> has f s = false.
Proof.
  intros H. induction s as [|b s IH]; simpl; [reflexivity|].
  destruct (f b) eqn:E; [rewrite (H _ E); discriminate|]. destruct (g b); [discriminate|exact IH].
Qed.

(** ** The number rules *)
Lemma has_at_tail f h b s : has_at f h (bcons b s) = false -> has_at f h s = false.
Proof. simpl. destruct (f b); [|auto]. destruct (h s); [discriminate|auto]. Qed.
Lemma has_at_here f h b s : f b = true -> h s = true -> has_at f h (bcons b s) = true.
Proof. simpl. intros -> ->. reflexivity. Qed.
Definition has_0e_tail b s : has_0e (bcons b s) = false -> has_0e s = false := has_at_tail _ _ b s.
Definition has_e0_tail b s : has_e0 (bcons b s) = false -> has_e0 s = false := has_at_tail _ _ b s.
Definition has_92_tail b s : has_92 (bcons b s) = false -> has_92 s = false := has_at_tail _ _ b s.
Definition has_pow_tail b s : has_pow (bcons b s) = false -> has_pow s = false := has_at_tail _ _ b s.
Lemma tail_app (h : bstr -> bool) (H : forall b s, h (bcons b s) = false -> h s = false) u v :
  h (u +++ v) = false -> h v = false.
Proof. induction u as [|b u IH]; simpl; intros E; [exact E|]. apply IH. eapply H, E. Qed.
Lemma span_app f s : fst (span f s) +++ snd (span f s) = s.
Proof.
  induction s as [|b s IH]; simpl; [reflexivity|]. destruct (f b); [|reflexivity].
  destruct (span f s) as [x y]. simpl in *. congruence.
Qed.
Lemma span_all f s b : In b (to_bytes (fst (span f s))) -> f b = true.
Proof.
  induction s as [|c s IH]; simpl; [tauto|]. destruct (f c) eqn:E; [|simpl; tauto].
  destruct (span f s) as [x y]. simpl in *. intros [->|H]; auto.
Qed.
Lemma snoc_case u : u = bnil \/ exists w c, u = w +++ bcons c bnil.
Proof.
  induction u as [|b u [->|(w & c & ->)]]; [left; reflexivity| |]; right.
  - exists bnil, b. reflexivity.
  - exists (bcons b w), c. reflexivity.
Qed.
Lemma in_snoc w c : In c (to_bytes (w +++ bcons c bnil)).
Proof. induction w as [|b w IH]; simpl; auto. Qed.
Lemma zeros_skip n s : has_0e s = false -> rule_zeros_fuel n s = s.
Proof.
  revert s; induction n as [|n IH]; intros s H; [reflexivity|].
  destruct s as [|b s]; [reflexivity|]. cbn [rule_zeros_fuel span].
  destruct (is_zero b) eqn:Eb; [|rewrite IH; [reflexivity|exact (has_0e_tail _ _ H)]].
  pose proof (span_app is_zero (bcons b s)) as Ea. pose proof (fun c => span_all is_zero (bcons b s) c) as El.
  simpl in Ea, El. rewrite Eb in Ea, El. destruct (span is_zero s) as [zs r] eqn:Es. cbn [fst snd] in Ea, El.
  assert (Hr : has_0e r = false).
  { rewrite <- Ea in H. exact (tail_app _ has_0e_tail _ _ H). }
  destruct (bstrip "e" r) as [r'|] eqn:Er; [|rewrite IH by exact Hr; exact Ea].
  apply bstrip_app in Er. subst r. exfalso.
  destruct (snoc_case (bcons b zs)) as [E|(w & z & E)]; [discriminate|].
  rewrite <- Ea, E, bapp_assoc in H. apply (tail_app _ has_0e_tail) in H.
  assert (Hz : is_zero z = true) by (apply El; rewrite E; apply in_snoc).
  unfold has_0e in H. cbn [bapp] in H. rewrite has_at_here in H; [discriminate|exact Hz|reflexivity].
Qed.
Lemma e0_skip n s : has_e0 s = false -> rule_e0_fuel n s = s.
Proof.
  revert s; induction n as [|n IH]; intros s H; [reflexivity|].
  destruct s as [|b s]; [reflexivity|]. cbn [rule_e0_fuel span].
  destruct (is_numch b) eqn:Eb; [|rewrite IH; [reflexivity|exact (has_e0_tail _ _ H)]].
  pose proof (span_app is_numch (bcons b s)) as Ea.
  simpl in Ea. rewrite Eb in Ea. destruct (span is_numch s) as [zs r] eqn:Es. cbn [fst snd] in Ea.
  assert (Hr : has_e0 r = false).
  { rewrite <- Ea in H. exact (tail_app _ has_e0_tail _ _ H). }
  assert (Hdef : bcons b zs +++ rule_e0_fuel n r = bcons b s) by (rewrite IH by exact Hr; exact Ea).
  destruct (bstrip "e0" r) as [r'|] eqn:Er; [|exact Hdef].
  apply bstrip_app in Er. subst r. discriminate.
Qed.
Lemma index_skip n s : has is_us s = false -> rule_index_fuel n s = s.
Proof.
  revert s; induction n as [|n IH]; intros s H; simpl; [reflexivity|].
  destruct s as [|b s]; [reflexivity|]. simpl in H. destruct (is_us b) eqn:E; [discriminate|].
  rewrite IH by exact H. reflexivity.
Qed.
Lemma pmatch_app p q s r : pmatch (p ++ q) s = Some r ->
  exists u v, s = u +++ v /\ blen u = length p /\ pmatch p (u +++ v) = Some v /\ pmatch q v = Some r.
Proof.
  revert s; induction p as [|[a|] p IH]; intros s H; cbn [app pmatch] in H.
  - exists bnil, s. auto.
  - destruct s as [|b s]; [discriminate|]. destruct (Byte.eqb a b) eqn:E; [|discriminate].
    destruct (IH _ H) as (u & v & -> & Hl & Hp & Hq). exists (bcons b u), v.
    cbn [bapp blen length pmatch]. rewrite E, Hl. auto.
  - destruct s as [|b s]; [discriminate|]. destruct (Byte.eqb b _) eqn:E; [discriminate|].
    destruct (IH _ H) as (u & v & -> & Hl & Hp & Hq). exists (bcons b u), v.
    cbn [bapp blen length pmatch]. rewrite E, Hl. auto.
Qed.
Lemma pmatch_lits p s r : pmatch (lits p) s = Some r -> s = p +++ r.
Proof.
  revert s; induction p as [|a p IH]; intros s H; cbn [lits pmatch] in H; [injection H as ->; reflexivity|].
  destruct s as [|b s]; [discriminate|]. destruct (Byte.eqb a b) eqn:E; [|discriminate].
  apply byte_eqb_eq in E. subst b. simpl. f_equal. apply IH, H.
Qed.
Lemma pmatch_lits_app p q s r : pmatch (lits p ++ q) s = Some r -> exists v, s = p +++ v.
Proof.
  intros H. destruct (pmatch_app _ _ _ _ H) as (u & v & -> & _ & Hp & _).
  apply pmatch_lits in Hp. exists v. exact Hp.
Qed.
Definition pi_pattern : list pchar := dotted "0.31415926535897932385e1".
Lemma pi_pattern_split : pi_pattern = dotted "0.31415" ++ lits "92" ++ dotted "6535897932385e1".
Proof. reflexivity. Qed.
Lemma pi_skip r s : has_92 s = false -> sub_lit pi_pattern r s = s.
Proof.
  intros H. apply sub_fuel_none. intros u v ->. apply (tail_app _ has_92_tail) in H.
  destruct (pmatch _ v) as [w|] eqn:E; [|reflexivity]. exfalso.
  rewrite pi_pattern_split in E. destruct (pmatch_app _ _ _ _ E) as (x & y & -> & _ & _ & E').
  destruct (pmatch_lits_app _ _ _ _ E') as (z & ->).
  apply (tail_app _ has_92_tail) in H. cbn [bapp] in H. unfold has_92 in H.
  rewrite has_at_here in H; [discriminate|reflexivity|reflexivity].
Qed.

(** ** The cube-root rules *)
Lemma suffix_split : cube_root_suffix = lits " ** (" ++ dotted "0.1e1 / 0.3e1)".
Proof. reflexivity. Qed.
Lemma suffix_pow s r : pmatch cube_root_suffix s = Some r -> has_pow s = true.
Proof.
  rewrite suffix_split. intros E. destruct (pmatch_lits_app _ _ _ _ E) as (v & ->). reflexivity.
Qed.
Lemma balanced_app d s g r : balanced d s = Some (g, r) -> s = g +++ r.
Proof.
  revert d g r; induction s as [|b s IH]; intros d g r H; simpl in H; [discriminate|].
  destruct (Byte.eqb b _).
  - destruct d as [|d].
    + injection H as <- <-. reflexivity.
    + destruct (balanced d s) as [[x y]|] eqn:E; [|discriminate]. injection H as <- <-.
      simpl. f_equal. eapply IH, E.
  - destruct (balanced _ s) as [[x y]|] eqn:E; [|discriminate]. injection H as <- <-.
    simpl. f_equal. eapply IH, E.
Qed.
Lemma cbrt_paren_skip s : has_pow s = false -> cbrt_paren s = None.
Proof.
  induction s as [|b s IH]; intros H; cbn [cbrt_paren]; [reflexivity|].
  pose proof (has_pow_tail _ _ H) as Ht. rewrite (IH Ht).
  destruct (Byte.eqb b _); [|reflexivity].
  destruct (balanced 0 s) as [[g r]|] eqn:E; [|reflexivity].
  destruct (pmatch cube_root_suffix r) as [w|] eqn:Em; [|reflexivity].
  apply suffix_pow in Em. apply balanced_app in E. subst s.
  rewrite (tail_app _ has_pow_tail _ _ Ht) in Em. discriminate.
Qed.
Lemma split_skip s : has_pow s = false -> split_last_suffix s = None.
Proof.
  induction s as [|b s IH]; intros H; [reflexivity|].
  cbn [split_last_suffix]. rewrite (IH (has_pow_tail _ _ H)).
  destruct (pmatch cube_root_suffix (bcons b s)) as [w|] eqn:Em; [|reflexivity].
  apply suffix_pow in Em. congruence.
Qed.
Lemma cbrt_var_skip s : has_pow s = false -> cbrt_var s = None.
Proof.
  induction s as [|b s IH]; intros H; cbn [cbrt_var]; [reflexivity|].
  pose proof (has_pow_tail _ _ H) as Ht. rewrite (IH Ht), (split_skip _ Ht).
  destruct (Byte.eqb b _); reflexivity.
Qed.

(** ** The quick version *)
Definition late_rules (s : bstr) : bstr :=
  let s := if has is_y s then sub_lit (dotted "scipy.special.i0") "jax.scipy.special.i0" s else s in
  let s := if has is_y s then sub_lit (dotted "scipy.special.lambertw") "lambertw" s else s in
  let s := if has is_m s then sub_lit (lits "math") "jnp" s else s in
  let s := if has is_a s then
             sub_lit (lits "abs") "jnp.abs" (sub_lit (lits "asinh") "arcsinh" (sub_lit (lits "atan") "arctan" s))
           else s in
  let s := if has is_D s then sub_lit (lits "DBL_EPSILON") eps_text s else s in
  if has is_m s then sub_lit (lits "lambda") "lambda_" s else s.
Definition post_fast (s : bstr) : bstr :=
  let s := if has is_us s then sub_lit (lits "_a_") "." s else s in
  let s := if has_0e s then rule_zeros s else s in
  let s := if has_e0 s then rule_e0 s else s in
  let s := if has is_us s then rule_index s else s in
  let s := if has_92 s then sub_lit (dotted "0.31415926535897932385e1") "jnp.pi" s else s in
  let s := if has is_m s then sub_lit (dotted "math.erf") "jax.lax.erf" s else s in
  let s := if has_pow s then rule_cbrt_paren s else s in
  let s := if has_pow s then rule_cbrt_var s else s in
  if has special s then late_rules s else s.

Ltac rule_step L :=
  match goal with |- context [if ?c then ?x else ?y] =>
    replace (if c then x else y) with x;
    [|destruct c eqn:?; [reflexivity|apply L; assumption]] end.
Lemma late_ok s :
  late_rules s =
  (let s := sub_lit (dotted "scipy.special.i0") "jax.scipy.special.i0" s in
   let s := sub_lit (dotted "scipy.special.lambertw") "lambertw" s in
   let s := sub_lit (lits "math") "jnp" s in
   let s := sub_lit (lits "atan") "arctan" s in
   let s := sub_lit (lits "asinh") "arcsinh" s in
   let s := sub_lit (lits "abs") "jnp.abs" s in
   let s := sub_lit (lits "DBL_EPSILON") eps_text s in
   sub_lit (lits "lambda") "lambda_" s).
Proof.
  assert (G : forall f p r s, existsb (fun c => match c with Lit b => f b | Any => false end) p = true ->
    (if has f s then sub_lit p r s else s) = sub_lit p r s).
  { intros f p r u E. destruct (has f u) eqn:H; [reflexivity|]. symmetry. eapply sub_lit_skip; eauto. }
  unfold late_rules. cbv zeta. rewrite !G by reflexivity.
  set (u := sub_lit (lits "math") _ _). clearbody u. f_equal. f_equal.
  destruct (has is_a u) eqn:E; [reflexivity|].
  rewrite (sub_lit_skip is_a (lits "atan")) by (exact E || reflexivity).
  rewrite (sub_lit_skip is_a (lits "asinh")) by (exact E || reflexivity).
  rewrite (sub_lit_skip is_a (lits "abs")) by (exact E || reflexivity). reflexivity.
Qed.
Lemma late_special s : has special s = false -> late_rules s = s.
Proof.
  intros H. unfold late_rules. cbv zeta.
  assert (Hy : has is_y s = false) by (apply (has_weaken _ special); [intros []; auto; discriminate|exact H]).
  assert (Hm : has is_m s = false) by (apply (has_weaken _ special); [intros []; auto; discriminate|exact H]).
  assert (Ha : has is_a s = false) by (apply (has_weaken _ special); [intros []; auto; discriminate|exact H]).
  assert (HD : has is_D s = false) by (apply (has_weaken _ special); [intros []; auto; discriminate|exact H]).
  repeat (rewrite Hy || rewrite Hm || rewrite Ha || rewrite HD). reflexivity.
Qed.

Theorem post_fast_ok s : post_fast s = post_process s.
Proof.
  assert (G : forall (b : bool) (x y z : bstr), x = z -> (b = false -> y = z) -> (if b then x else y) = z).
  { intros [] x y z H1 H2; auto. }
  unfold post_fast, post_process. cbv zeta.
  rewrite (G (has is_us s) _ _ (sub_lit (lits "_a_") "." s)); [|reflexivity|].
  2:{ intros H. symmetry. apply (sub_lit_skip is_us); [exact H|reflexivity]. }
  set (s1 := sub_lit _ _ _). clearbody s1.
  rewrite (G (has_0e s1) _ _ (rule_zeros s1)); [|reflexivity|].
  2:{ intros H. symmetry. apply zeros_skip, H. }
  set (s2 := rule_zeros _). clearbody s2.
  rewrite (G (has_e0 s2) _ _ (rule_e0 s2)); [|reflexivity|].
  2:{ intros H. symmetry. apply e0_skip, H. }
  set (s3 := rule_e0 _). clearbody s3.
  rewrite (G (has is_us s3) _ _ (rule_index s3)); [|reflexivity|].
  2:{ intros H. symmetry. apply index_skip, H. }
  set (s4 := rule_index _). clearbody s4.
  rewrite (G (has_92 s4) _ _ (sub_lit pi_pattern "jnp.pi" s4)); [|reflexivity|].
  2:{ intros H. symmetry. apply pi_skip, H. }
  set (s5 := sub_lit _ _ s4). clearbody s5.
  rewrite (G (has is_m s5) _ _ (sub_lit (dotted "math.erf") "jax.lax.erf" s5)); [|reflexivity|].
  2:{ intros H. symmetry. apply (sub_lit_skip is_m); [exact H|reflexivity]. }
  set (s6 := sub_lit _ _ s5). clearbody s6.
  rewrite (G (has_pow s6) _ _ (rule_cbrt_paren s6)); [|reflexivity|].
  2:{ intros H. symmetry. unfold rule_cbrt_paren. rewrite (cbrt_paren_skip _ H). reflexivity. }
  set (s7 := rule_cbrt_paren _). clearbody s7.
  rewrite (G (has_pow s7) _ _ (rule_cbrt_var s7)); [|reflexivity|].
  2:{ intros H. symmetry. unfold rule_cbrt_var. rewrite (cbrt_var_skip _ H). reflexivity. }
  set (s8 := rule_cbrt_var _). clearbody s8.
  rewrite (G (has special s8) _ _ (late_rules s8)); [|reflexivity|].
  2:{ intros H. symmetry. apply late_special, H. }
  apply late_ok.
Qed.

Definition generated_fast (src : list bstr) : option program := parse jax_voc (map post_fast src).
Lemma generated_fast_ok src : generated_fast src = generated src.
Proof.
  unfold generated_fast, generated, post_process_file. f_equal.
  apply map_ext. exact post_fast_ok.
Qed.
Lemma by_fast src r : generated_fast src = r -> generated src = r.
Proof. intros <-. symmetry. apply generated_fast_ok. Qed.
