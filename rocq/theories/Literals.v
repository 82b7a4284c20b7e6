(** Rules 2 and 3 of [post_process] (/repo/gen_repo/impl/gen_py.py:24,26) keep the value of
    Maple's numeric literals. *)
From Coq Require Import Strings.Byte List Bool NArith ZArith QArith Lia PeanoNat.
From Verif Require Import Bytes Syntax Parser PostProcess PostFast.
Import ListNotations.

(** ** The two rules, character by character *)
(** Zeros, then an e. *)
Definition zte (s : bstr) : bool := starts is_e (snd (span is_zero s)).
Fixpoint fz (s : bstr) : bstr :=
  match s with bnil => bnil | bcons b s' => if is_zero b && zte s' then fz s' else bcons b (fz s') end.
Inductive mode := Fresh | InNum | Drop.
Fixpoint fe (m : mode) (s : bstr) : bstr :=
  match s with
  | bnil => bnil
  | bcons b s' =>
      let keep := bcons b (fe (if is_numch b then InNum else Fresh) s') in
      match m with
      | Drop => if is_zero b then fe Drop s' else keep
      | InNum => if is_e b && starts is_zero s' then fe Drop s' else keep
      | Fresh => keep
      end
  end.

Lemma is_e_eqb b : Byte.eqb "e" b = is_e b.
Proof. destruct (Byte.eqb "e" b) eqn:E; [apply byte_eqb_eq in E; subst; reflexivity|]. destruct b; try reflexivity. discriminate E. Qed.
Lemma is_zero_eq b : is_zero b = true -> b = "0"%byte. Proof. destruct b; try discriminate; reflexivity. Qed.
Lemma is_e_eq b : is_e b = true -> b = "e"%byte. Proof. destruct b; try discriminate; reflexivity. Qed.
Lemma strip_e r : bstrip "e" r = if starts is_e r then Some (match r with bcons _ r => r | bnil => bnil end) else None.
Proof. destruct r as [|b r]; [reflexivity|]. cbn [bstrip starts]. rewrite is_e_eqb. destruct (is_e b); reflexivity. Qed.
Lemma span_snd_len f s : (blen (snd (span f s)) <= blen s)%nat.
Proof. rewrite <- (span_app f s) at 2. rewrite blen_app. lia. Qed.

Lemma fz_zeros s : let '(zs, r) := span is_zero s in fz s = if starts is_e r then fz r else zs +++ fz r.
Proof.
  induction s as [|b s IH]; [reflexivity|]. cbn [span]. destruct (is_zero b) eqn:Z.
  - unfold zte in *. destruct (span is_zero s) as [zs r] eqn:E. cbn [fz]. rewrite Z. unfold zte. rewrite E. cbn [snd andb].
    destruct (starts is_e r); [exact IH|]. cbn [bapp]. f_equal. exact IH.
  - cbn [bapp]. destruct (starts is_e (bcons b s)); reflexivity.
Qed.
Lemma zeros_fz : forall n s, (blen s < n)%nat -> rule_zeros_fuel n s = fz s.
Proof.
  induction n as [|n IH]; intros s L; [lia|]. destruct s as [|b s]; [reflexivity|]. cbn [rule_zeros_fuel].
  destruct (is_zero b) eqn:Z.
  - pose proof (fz_zeros (bcons b s)) as F. pose proof (span_app is_zero (bcons b s)) as SA. cbn [span] in *. rewrite Z in *.
    destruct (span is_zero s) as [zs r]. cbn [fst snd bapp] in SA. injection SA as SA.
    assert (LR : (blen r < n)%nat) by (rewrite <- SA in L; cbn in L; rewrite blen_app in L; lia).
    rewrite strip_e, F. destruct r as [|c r]; [cbn [starts]; rewrite IH by (cbn; lia); reflexivity|]. cbn [starts].
    destruct (is_e c) eqn:Ec.
    + apply is_e_eq in Ec. subst c. rewrite IH by (cbn in LR; lia). reflexivity.
    + rewrite IH by exact LR. reflexivity.
  - rewrite IH by (cbn in L; lia). cbn [fz]. rewrite Z. reflexivity.
Qed.
Theorem rule_zeros_fz s : rule_zeros s = fz s. Proof. apply zeros_fz. lia. Qed.

Lemma fe_drop s : fe Drop s = fe Fresh (snd (span is_zero s)).
Proof.
  induction s as [|b s IH]; [reflexivity|]. cbn [fe span]. destruct (is_zero b) eqn:Z; [|reflexivity].
  rewrite IH. destruct (span is_zero s); reflexivity.
Qed.
Lemma numch_not_e b : is_numch b = true -> is_e b = false. Proof. destruct b; try discriminate; reflexivity. Qed.
Lemma fe_num s : forall m, m <> Drop -> fe m s = let '(x, r) := span is_numch s in x +++ fe (match x with bnil => m | _ => InNum end) r.
Proof.
  induction s as [|b s IH]; intros m Hm; [reflexivity|]. cbn [span]. destruct (is_numch b) eqn:N; [|reflexivity].
  assert (E : fe m (bcons b s) = bcons b (fe InNum s)).
  { cbn [fe]. rewrite N, (numch_not_e b N). destruct m; [reflexivity|reflexivity|congruence]. }
  rewrite E, (IH InNum) by discriminate. destruct (span is_numch s) as [x r]. cbn [bapp]. f_equal. destruct x; reflexivity.
Qed.
Lemma strip_e0 r : bstrip "e0" r = match r with bcons b (bcons c r') => if is_e b && is_zero c then Some r' else None | _ => None end.
Proof.
  destruct r as [|b r]; [reflexivity|]. cbn [bstrip]. rewrite is_e_eqb. destruct (is_e b); [|destruct r; reflexivity].
  destruct r as [|c r]; [reflexivity|]. cbn [bstrip]. assert (Byte.eqb "0" c = is_zero c) as ->; [|destruct (is_zero c); reflexivity].
  destruct (Byte.eqb "0" c) eqn:E; [apply byte_eqb_eq in E; subst; reflexivity|]. destruct c; try reflexivity. discriminate E.
Qed.
Lemma fe_after r : fe InNum r = match bstrip "e0" r with Some r' => fe Fresh (snd (span is_zero r')) | None => fe Fresh r end.
Proof.
  rewrite strip_e0. destruct r as [|b r]; [reflexivity|]. cbn [fe]. destruct r as [|c r]; [cbn [starts]; rewrite andb_false_r; reflexivity|].
  cbn [starts]. destruct (is_e b && is_zero c) eqn:E; [|reflexivity]. apply andb_prop in E. destruct E as (_ & E).
  rewrite fe_drop. cbn [span]. rewrite E. destruct (span is_zero r); reflexivity.
Qed.
Lemma e0_fe : forall n s, (blen s < n)%nat -> rule_e0_fuel n s = fe Fresh s.
Proof.
  induction n as [|n IH]; intros s L; [lia|]. destruct s as [|b s]; [reflexivity|]. cbn [rule_e0_fuel].
  destruct (is_numch b) eqn:N.
  - pose proof (fe_num (bcons b s) Fresh ltac:(discriminate)) as F. pose proof (span_app is_numch (bcons b s)) as SA. cbn [span] in *. rewrite N in *.
    destruct (span is_numch s) as [x r]. cbn [fst snd bapp] in SA. injection SA as SA.
    assert (LR : (blen r < n)%nat) by (rewrite <- SA in L; cbn in L; rewrite blen_app in L; lia).
    rewrite F, fe_after. destruct (bstrip "e0" r) as [r'|] eqn:E.
    + apply bstrip_app in E. subst r. f_equal. apply IH. pose proof (span_snd_len is_zero r'). cbn in LR. lia.
    + f_equal. apply IH, LR.
  - rewrite IH by (cbn in L; lia). cbn [fe]. rewrite N. reflexivity.
Qed.
Theorem rule_e0_fe s : rule_e0 s = fe Fresh s. Proof. apply e0_fe. lia. Qed.

(** ** Literals in Maple's format *)
Record literal := Literal { li_int : bstr; li_frac : bstr; li_neg : bool; li_exp : bstr }.
Definition lit_text (l : literal) : bstr :=
  li_int l +++ bcons "." (li_frac l +++ bcons "e" ((if li_neg l then "-"%b else bnil) +++ li_exp l)).
(** The number written by a literal: digits times ten to the exponent. *)
Definition lit_Q (l : literal) : Q := lit_value (li_int l) (li_frac l) (li_neg l) (li_exp l).
Fixpoint all_b (f : byte -> bool) (s : bstr) : bool := match s with bnil => true | bcons b s => f b && all_b f s end.
(** Digits around a point, and an exponent that is negative, zero, or has no leading zero. *)
Definition maple_literal (l : literal) : Prop :=
  li_int l <> bnil /\ all_b is_digit (li_int l) = true /\ all_b is_digit (li_frac l) = true /\
  li_exp l <> bnil /\ all_b is_digit (li_exp l) = true /\
  (li_neg l = true \/ all_b is_zero (li_exp l) = true \/ starts is_zero (li_exp l) = false).
(** The fraction without its trailing zeros. *)
Fixpoint trim (s : bstr) : bstr :=
  match s with bnil => bnil | bcons b s => match trim s with bnil => if is_zero b then bnil else bcons b bnil | t => bcons b t end end.
(** What the rules leave. *)
Definition short_text (l : literal) : bstr :=
  li_int l +++ bcons "." (trim (li_frac l) +++
    (if negb (li_neg l) && starts is_zero (li_exp l) then bnil else bcons "e" ((if li_neg l then "-"%b else bnil) +++ li_exp l))).

Lemma zte_trim s t : all_b is_digit s = true -> starts is_e t = true -> zte (s +++ t) = all_b is_zero s.
Proof.
  intros D E. unfold zte. induction s as [|b s IH]; cbn [bapp span all_b].
  - destruct t as [|c t]; [discriminate|]. cbn [starts] in E. cbn [span]. rewrite (is_e_eq _ E). reflexivity.
  - cbn in D. apply andb_prop in D. destruct D as (Db & D). specialize (IH D). destruct (is_zero b); cbn [andb].
    + destruct (span is_zero (s +++ t)); exact IH.
    + destruct b; try discriminate; reflexivity.
Qed.
Lemma trim_zeros s : all_b is_zero s = true -> trim s = bnil.
Proof. induction s as [|b s IH]; [reflexivity|]. cbn. intros H. apply andb_prop in H. destruct H as (A & B). rewrite (IH B), A. reflexivity. Qed.
Lemma trim_nil s : trim s = bnil -> all_b is_zero s = true.
Proof. induction s as [|b s IH]; [reflexivity|]. cbn. destruct (trim s); [|discriminate]. destruct (is_zero b); [intros _; apply IH; reflexivity|discriminate]. Qed.
Lemma fz_frac s t : all_b is_digit s = true -> starts is_e t = true -> fz (s +++ t) = trim s +++ fz t.
Proof.
  intros D E. induction s as [|b s IH]; [reflexivity|]. cbn [all_b] in D. apply andb_prop in D. destruct D as (Db & D). specialize (IH D).
  cbn [bapp fz trim]. rewrite (zte_trim s t D E), IH. destruct (all_b is_zero s) eqn:Z.
  - rewrite (trim_zeros s Z). destruct (is_zero b); reflexivity.
  - rewrite andb_false_r. destruct (trim s) eqn:T; [rewrite (trim_nil s T) in Z; discriminate|reflexivity].
Qed.
(** Digits followed by neither a digit nor an e. *)
Definition quiet_start (t : bstr) : Prop := starts is_e t = false /\ starts is_numch t = false.
Lemma fz_digits s t : all_b is_digit s = true -> (forall c t', t = bcons c t' -> is_zero c = false /\ is_e c = false) -> fz (s +++ t) = s +++ fz t.
Proof.
  intros D E. assert (Z : forall s, all_b is_digit s = true -> zte (s +++ t) = false).
  { unfold zte. clear s D. induction s as [|b s IH]; intros D; cbn [bapp span].
    - destruct t as [|c t']; [reflexivity|]. destruct (E c t' eq_refl) as (Z & Ee). cbn [span]. rewrite Z. exact Ee.
    - cbn in D. apply andb_prop in D. destruct D as (Db & D). specialize (IH D). destruct (is_zero b).
      + destruct (span is_zero (s +++ t)); exact IH.
      + destruct b; try discriminate; reflexivity. }
  induction s as [|b s IH]; [reflexivity|]. pose proof D as D'. cbn [all_b] in D. apply andb_prop in D. destruct D as (Db & D).
  cbn [bapp fz]. rewrite (Z s D), andb_false_r, (IH D). reflexivity.
Qed.
Lemma quiet_next t : quiet_start t -> forall c t', t = bcons c t' -> is_zero c = false /\ is_e c = false.
Proof. intros (A & B) c t' ->. cbn in *. split; [|exact A]. destruct c; try reflexivity; discriminate. Qed.
Definition zeroed (l : literal) : literal := Literal (li_int l) (trim (li_frac l)) (li_neg l) (li_exp l).
Lemma fz_literal l t : maple_literal l -> quiet_start t -> fz (lit_text l +++ t) = lit_text (zeroed l) +++ fz t.
Proof.
  intros (I0 & I & F & X0 & X & Hx) Q. unfold lit_text, zeroed. cbn [li_int li_frac li_neg li_exp]. rewrite !bapp_assoc. cbn [bapp].
  rewrite fz_digits; [|exact I|intros c t' E; injection E as <- _; split; reflexivity]. f_equal.
  cbn [fz is_zero andb]. f_equal. rewrite !bapp_assoc. rewrite fz_frac; [|exact F|reflexivity]. f_equal.
  cbn [bapp fz is_zero andb]. f_equal. rewrite !bapp_assoc. destruct (li_neg l); cbn [bapp fz is_zero andb]; [f_equal|];
    (apply fz_digits; [exact X|apply quiet_next, Q]).
Qed.
Lemma all_b_app f s t : all_b f (s +++ t) = all_b f s && all_b f t.
Proof. induction s as [|b s IH]; [reflexivity|]. cbn. rewrite IH. apply andb_assoc. Qed.
Lemma all_b_imp (f g : byte -> bool) s : (forall b, f b = true -> g b = true) -> all_b f s = true -> all_b g s = true.
Proof. intros H. induction s as [|b s IH]; [reflexivity|]. cbn. intros A. apply andb_prop in A. destruct A as (A & B). rewrite (H b A), (IH B). reflexivity. Qed.
Lemma digit_numch b : is_digit b = true -> is_numch b = true. Proof. destruct b; try discriminate; reflexivity. Qed.
Lemma zero_digit b : is_zero b = true -> is_digit b = true. Proof. destruct b; try discriminate; reflexivity. Qed.
Lemma fe_numch s t m : s <> bnil -> m <> Drop -> all_b is_numch s = true -> fe m (s +++ t) = s +++ fe InNum t.
Proof.
  revert m. induction s as [|b s IH]; intros m N Hm H; [congruence|]. cbn [all_b] in H. apply andb_prop in H. destruct H as (Hb & H).
  assert (E : fe m (bcons b s +++ t) = bcons b (fe InNum (s +++ t))).
  { cbn [bapp fe]. rewrite Hb, (numch_not_e b Hb). destruct m; [reflexivity|reflexivity|congruence]. }
  rewrite E. cbn [bapp]. f_equal. destruct s as [|c s]; [reflexivity|]. apply IH; [discriminate|discriminate|exact H].
Qed.
Lemma fe_quiet t : quiet_start t -> fe InNum t = fe Fresh t /\ fe Drop t = fe Fresh t.
Proof.
  intros (A & B). destruct t as [|c t]; [split; reflexivity|]. cbn [starts] in *. cbn [fe]. rewrite A. cbn [andb].
  split; [reflexivity|]. destruct (is_zero c) eqn:Z; [|reflexivity]. destruct c; discriminate.
Qed.
Lemma trim_digits s : all_b is_digit s = true -> all_b is_digit (trim s) = true.
Proof.
  induction s as [|b s IH]; [reflexivity|]. cbn. intros H. apply andb_prop in H. destruct H as (A & B). specialize (IH B).
  destruct (trim s); [destruct (is_zero b); [reflexivity|cbn; rewrite A; reflexivity]|]. cbn [all_b] in *. rewrite A, IH. reflexivity.
Qed.
Lemma fe_drop_zeros s t : all_b is_zero s = true -> quiet_start t -> fe Drop (s +++ t) = fe Fresh t.
Proof.
  intros Z Q. induction s as [|b s IH]; [apply fe_quiet, Q|]. cbn in Z. apply andb_prop in Z. destruct Z as (A & B). cbn [bapp fe]. rewrite A. apply IH, B.
Qed.
Lemma fe_e s : fe InNum (bcons "e" s) = if starts is_zero s then fe Drop s else bcons "e" (fe Fresh s). Proof. reflexivity. Qed.
Lemma fe_literal l t : maple_literal l -> quiet_start t -> fe Fresh (lit_text (zeroed l) +++ t) = short_text l +++ fe Fresh t.
Proof.
  intros (I0 & I & F & X0 & X & Hx) Q. unfold lit_text, short_text, zeroed. cbn [li_int li_frac li_neg li_exp].
  set (e := (if li_neg l then "-"%b else bnil) +++ li_exp l).
  replace ((li_int l +++ bcons "." (trim (li_frac l) +++ bcons "e" e)) +++ t)
    with ((li_int l +++ bcons "." (trim (li_frac l))) +++ bcons "e" (e +++ t)) by (rewrite !bapp_assoc; cbn [bapp]; rewrite !bapp_assoc; reflexivity).
  rewrite fe_numch; [|destruct (li_int l); discriminate|discriminate|].
  2:{ rewrite all_b_app. cbn [all_b is_numch andb]. rewrite (all_b_imp _ _ _ digit_numch I), (all_b_imp _ _ _ digit_numch (trim_digits _ F)). reflexivity. }
  rewrite !bapp_assoc. cbn [bapp]. rewrite !bapp_assoc. do 3 f_equal.
  unfold e. rewrite fe_e. destruct (li_neg l) eqn:N; cbn [bapp negb andb starts].
  - cbn [is_zero]. change (fe Fresh (bcons "-" (li_exp l +++ t))) with (bcons "-" (fe Fresh (li_exp l +++ t))). do 2 f_equal.
    rewrite fe_numch; [|exact X0|discriminate|exact (all_b_imp _ _ _ digit_numch X)]. f_equal. apply fe_quiet, Q.
  - destruct (li_exp l) as [|c x] eqn:Ex; [congruence|]. cbn [starts bapp]. destruct (is_zero c) eqn:Z.
    + destruct Hx as [Hx|[Hx|Hx]]; [discriminate| |cbn in Hx; congruence]. exact (fe_drop_zeros (bcons c x) t Hx Q).
    + cbn [bapp]. f_equal. change (bcons c (x +++ t)) with (bcons c x +++ t).
      rewrite fe_numch; [cbn [bapp]; do 2 f_equal; apply fe_quiet, Q|discriminate|discriminate|exact (all_b_imp _ _ _ digit_numch X)].
Qed.
Theorem literal_rewritten l t : maple_literal l -> quiet_start t ->
  fz (lit_text l +++ t) = lit_text (zeroed l) +++ fz t /\ fe Fresh (lit_text (zeroed l) +++ t) = short_text l +++ fe Fresh t.
Proof. intros H Q. split; [apply fz_literal|apply fe_literal]; assumption. Qed.

(** ** Lines: literals separated by other text *)
Fixpoint ends_ok (t : bstr) : bool :=
  match t with bnil => false | bcons b bnil => negb (is_numch b) && negb (is_e b) | bcons _ t => ends_ok t end.
(** Text that the rules leave alone, in front of a literal. *)
Definition between_text (t : bstr) : Prop := has_0e t = false /\ has_e0 t = false /\ ends_ok t = true.
Fixpoint line (l : list (bstr * literal)) (last : bstr) : bstr :=
  match l with [] => last | (t, n) :: l => t +++ lit_text n +++ line l last end.
Fixpoint short_line (l : list (bstr * literal)) (last : bstr) : bstr :=
  match l with [] => last | (t, n) :: l => t +++ short_text n +++ short_line l last end.
Definition line_ok (l : list (bstr * literal)) (last : bstr) : Prop :=
  Forall (fun p => between_text (fst p) /\ quiet_start (fst p) /\ maple_literal (snd p)) l /\
  has_0e last = false /\ has_e0 last = false /\ quiet_start last.

Lemma starts_app f t s : t <> bnil -> starts f (t +++ s) = starts f t.
Proof. destruct t; [congruence|reflexivity]. Qed.
Lemma zte_text t s : forall b, is_zero b = true -> has_0e (bcons b t) = false -> ends_ok t = true -> zte (t +++ s) = false.
Proof.
  induction t as [|c t IH]; intros b Z H E; [discriminate E|]. unfold has_0e in H. cbn [has_at] in H. rewrite Z in H. cbn [andb starts] in H.
  apply orb_false_iff in H. destruct H as (Ec & H). unfold zte in *. cbn [bapp span]. destruct (is_zero c) eqn:Zc.
  - assert (Et : ends_ok t = true). { destruct t as [|d t]; [cbn in E; destruct c; discriminate|exact E]. }
    assert (Hc : has_0e (bcons c t) = false). { unfold has_0e. cbn [has_at]. rewrite Zc. cbn [andb]. exact H. }
    specialize (IH c Zc Hc Et). destruct (span is_zero (t +++ s)); exact IH.
  - exact Ec.
Qed.
Lemma ends_ok_tail b t : t <> bnil -> ends_ok (bcons b t) = ends_ok t. Proof. destruct t; [congruence|reflexivity]. Qed.
Lemma fz_text t s : has_0e t = false -> ends_ok t = true -> fz (t +++ s) = t +++ fz s.
Proof.
  induction t as [|b t IH]; intros H E; [reflexivity|]. pose proof (has_0e_tail _ _ H) as Ht. cbn [bapp fz].
  destruct t as [|c t].
  - cbn [bapp] in *. destruct (is_zero b) eqn:Z; [cbn in E; destruct b; discriminate|]. reflexivity.
  - rewrite ends_ok_tail in E by discriminate. rewrite (IH Ht E). destruct (is_zero b) eqn:Z; [|reflexivity].
    rewrite (zte_text (bcons c t) s b Z H E). reflexivity.
Qed.
Lemma fe_text t s : forall m, m <> Drop -> has_e0 t = false -> ends_ok t = true -> fe m (t +++ s) = t +++ fe Fresh s.
Proof.
  induction t as [|b t IH]; intros m Hm H E; [discriminate E|]. pose proof (has_e0_tail _ _ H) as Ht. cbn [bapp].
  assert (K : fe m (bcons b (t +++ s)) = bcons b (fe (if is_numch b then InNum else Fresh) (t +++ s))).
  { cbn [fe]. destruct m; [reflexivity| |congruence]. destruct (is_e b && starts is_zero (t +++ s)) eqn:C; [|reflexivity].
    apply andb_prop in C. destruct C as (C & D). destruct t as [|c t]; [cbn in E; rewrite C, andb_false_r in E; discriminate|].
    unfold has_e0 in H. cbn [has_at] in H. rewrite C in H. cbn [starts bapp] in D, H. rewrite D in H. discriminate. }
  rewrite K. f_equal. destruct t as [|c t].
  - cbn in E. destruct (is_numch b); [discriminate|]. reflexivity.
  - rewrite ends_ok_tail in E by discriminate. apply IH; [destruct (is_numch b); discriminate|exact Ht|exact E].
Qed.
Lemma quiet_line l last : line_ok l last -> quiet_start (line l last).
Proof.
  intros (F & A & B & Q). destruct l as [|[t n] l]; [exact Q|]. inversion F as [|? ? ((_ & _ & E) & H & _) _]; subst. cbn [fst] in *.
  cbn [line]. destruct H as (H1 & H2). destruct t as [|b t]; [discriminate|]. split; assumption.
Qed.
Lemma line_ok_tail p l last : line_ok (p :: l) last -> line_ok l last.
Proof. intros (F & R). inversion F; subst. split; assumption. Qed.
Fixpoint zeroed_line (l : list (bstr * literal)) (last : bstr) : bstr :=
  match l with [] => last | (t, n) :: l => t +++ lit_text (zeroed n) +++ zeroed_line l last end.
Lemma quiet_zeroed l last : line_ok l last -> quiet_start (zeroed_line l last).
Proof.
  intros (F & A & B & Q). destruct l as [|[t n] l]; [exact Q|]. inversion F as [|? ? ((_ & _ & E) & H & _) _]; subst. cbn [fst] in *.
  cbn [zeroed_line]. destruct H as (H1 & H2). destruct t as [|b t]; [discriminate|]. split; assumption.
Qed.
Lemma fz_line l last : line_ok l last -> fz (line l last) = zeroed_line l last.
Proof.
  induction l as [|[t n] l IH]; intros H.
  - destruct H as (_ & A & _). cbn [line zeroed_line]. rewrite <- rule_zeros_fz. apply zeros_skip, A.
  - pose proof (line_ok_tail _ _ _ H) as Ht. destruct H as (F & _). inversion F as [|? ? ((A & _ & E) & _ & M) _]; subst. cbn [fst snd] in *.
    cbn [line zeroed_line]. rewrite (fz_text t _ A E), (fz_literal n _ M (quiet_line _ _ Ht)), (IH Ht). reflexivity.
Qed.
Lemma fe_line l last : line_ok l last -> fe Fresh (zeroed_line l last) = short_line l last.
Proof.
  induction l as [|[t n] l IH]; intros H.
  - destruct H as (_ & _ & A & _). cbn [zeroed_line short_line]. rewrite <- rule_e0_fe. apply e0_skip, A.
  - pose proof (line_ok_tail _ _ _ H) as Ht. destruct H as (F & _). inversion F as [|? ? ((_ & A & E) & _ & M) _]; subst. cbn [fst snd] in *.
    cbn [zeroed_line short_line]. rewrite (fe_text t _ Fresh ltac:(discriminate) A E), (fe_literal n _ M (quiet_zeroed _ _ Ht)), (IH Ht). reflexivity.
Qed.
Theorem line_rewritten l last : line_ok l last -> rule_e0 (rule_zeros (line l last)) = short_line l last.
Proof. intros H. rewrite rule_zeros_fz, rule_e0_fe, (fz_line l last H). apply fe_line, H. Qed.

(** ** Values *)
Lemma digits_N_app s : forall t acc, digits_N acc (s +++ t) = digits_N (digits_N acc s) t.
Proof. induction s as [|b s IH]; intros t acc; [reflexivity|]. apply IH. Qed.
Lemma p10_add a b : p10 (a + b) = (p10 a * p10 b)%positive.
Proof.
  destruct a as [|a], b as [|b]; cbn [N.add p10]; [reflexivity| |rewrite Pos.mul_1_r; reflexivity|]; [reflexivity|].
  apply Pos2Z.inj. rewrite Pos2Z.inj_mul, !Pos2Z.inj_pow, Pos2Z.inj_add. apply Z.pow_add_r; lia.
Qed.
Lemma trim_split s : exists z, s = trim s +++ z /\ all_b is_zero z = true.
Proof.
  induction s as [|b s (z & E & Z)]; [exists bnil; auto|]. cbn [trim]. destruct (trim s) as [|c t] eqn:T.
  - cbn [bapp] in E. subst z. destruct (is_zero b) eqn:B.
    + exists (bcons b s). split; [reflexivity|]. cbn. rewrite B. exact Z.
    + exists s. split; [reflexivity|exact Z].
  - exists z. split; [cbn [bapp] in *; congruence|exact Z].
Qed.
Lemma digits_zeros z : all_b is_zero z = true -> forall acc, digits_N acc z = (acc * Npos (p10 (N.of_nat (blen z))))%N.
Proof.
  induction z as [|b z IH]; intros Z acc; [cbn; lia|]. cbn in Z. apply andb_prop in Z. destruct Z as (B & Z). apply is_zero_eq in B. subst b.
  cbn [digits_N]. rewrite (IH Z). change (digit_val "0") with 0%N. cbn [blen]. rewrite Nat2N.inj_succ, <- N.add_1_l, p10_add.
  change (p10 1) with 10%positive. change (N.pos (10 * p10 (N.of_nat (blen z)))) with (10 * N.pos (p10 (N.of_nat (blen z))))%N. lia.
Qed.
Theorem trim_value ip fp neg ex : lit_value ip (trim fp) neg ex = lit_value ip fp neg ex.
Proof.
  destruct (trim_split fp) as (z & E & Z). unfold lit_value. set (t := trim fp) in *. rewrite E.
  rewrite <- bapp_assoc, (digits_N_app (ip +++ t) z 0), (digits_zeros z Z), blen_app, Nat2N.inj_add.
  set (m := digits_N 0 (ip +++ t)). set (d := N.of_nat (blen t)). set (k := N.of_nat (blen z)). set (e := digits_N 0 ex).
  destruct neg; apply Qred_complete; unfold Qeq; cbn [Qnum Qden]; rewrite !p10_add, !Pos2Z.inj_mul, N2Z.inj_mul; cbn [Z.of_N]; ring.
Qed.
Lemma span_stop f s t : all_b f s = true -> starts f t = false -> span f (s +++ t) = (s, t).
Proof.
  intros A B. induction s as [|b s IH]; cbn [bapp span].
  - destruct t as [|c t]; [reflexivity|]. cbn in *. rewrite B. reflexivity.
  - cbn in A. apply andb_prop in A. destruct A as (A1 & A2). rewrite A1, (IH A2). reflexivity.
Qed.
(** Reading a literal: the characters after it must not continue it. *)
Definition lex_end (t : bstr) : Prop := starts is_numch t = false /\ starts is_e t = false.
Lemma lex_end_digit t : starts is_numch t = false -> starts is_digit t = false.
Proof. destruct t as [|b t]; [reflexivity|]. cbn. intros H. destruct (is_digit b) eqn:D; [rewrite (digit_numch b D) in H; discriminate|reflexivity]. Qed.
Lemma lex_exp_no_e t : starts is_e t = false -> lex_exp t = (false, bnil, t).
Proof. destruct t as [|b t]; [reflexivity|]. cbn [starts]. destruct b; try discriminate; reflexivity. Qed.
Lemma lex_exp_neg ex t : ex <> bnil -> all_b is_digit ex = true -> starts is_digit t = false -> lex_exp (bcons "e" (bcons "-" (ex +++ t))) = (true, ex, t).
Proof. intros N D T. cbn [lex_exp]. rewrite (span_stop _ _ _ D T). destruct ex; [congruence|reflexivity]. Qed.
Lemma lex_exp_pos ex t : ex <> bnil -> all_b is_digit ex = true -> starts is_digit t = false -> lex_exp (bcons "e" (ex +++ t)) = (false, ex, t).
Proof.
  intros N D T. pose proof (span_stop _ _ _ D T) as Sp. destruct ex as [|c ex]; [congruence|]. cbn in D. apply andb_prop in D. destruct D as (D & _).
  cbn [bapp] in *. destruct c; try discriminate D; cbn [lex_exp]; rewrite Sp; reflexivity.
Qed.
Lemma lex_literal l t : maple_literal l -> lex_end t -> lex_num (lit_text l +++ t) = (lit_Q l, t).
Proof.
  intros (I0 & I & F & X0 & X & _) (Q1 & Q2). unfold lex_num, lit_text. rewrite !bapp_assoc. cbn [bapp].
  rewrite (span_stop is_digit); [|exact I|reflexivity]. cbn [bapp]. rewrite !bapp_assoc. rewrite (span_stop is_digit); [|exact F|reflexivity].
  cbn [bapp]. rewrite bapp_assoc. destruct (li_neg l) eqn:N; cbn [bapp].
  - rewrite lex_exp_neg; [|exact X0|exact X|apply lex_end_digit, Q1]. unfold lit_Q. rewrite N. reflexivity.
  - rewrite lex_exp_pos; [|exact X0|exact X|apply lex_end_digit, Q1]. unfold lit_Q. rewrite N. reflexivity.
Qed.
Lemma zero_exp ip fp ex : all_b is_zero ex = true -> lit_value ip fp false ex = lit_value ip fp false bnil.
Proof. intros Z. unfold lit_value. rewrite (digits_zeros ex Z 0). reflexivity. Qed.
Lemma lex_short l t : maple_literal l -> lex_end t -> lex_num (short_text l +++ t) = (lit_Q l, t).
Proof.
  intros (I0 & I & F & X0 & X & Hx) (Q1 & Q2). unfold lex_num, short_text. rewrite !bapp_assoc. cbn [bapp].
  rewrite (span_stop is_digit); [|exact I|reflexivity]. cbn [bapp]. rewrite !bapp_assoc.
  pose proof (trim_digits _ F) as F'. destruct (negb (li_neg l) && starts is_zero (li_exp l)) eqn:C; cbn [bapp].
  - rewrite (span_stop is_digit _ t F' (lex_end_digit t Q1)), (lex_exp_no_e t Q2). apply andb_prop in C. destruct C as (C1 & C2).
    apply negb_true_iff in C1. f_equal. unfold lit_Q. rewrite C1, trim_value. symmetry. apply zero_exp.
    destruct Hx as [Hx|[Hx|Hx]]; [congruence|exact Hx|congruence].
  - rewrite (span_stop is_digit); [|exact F'|reflexivity]. rewrite bapp_assoc. unfold lit_Q. rewrite <- (trim_value (li_int l) (li_frac l)).
    destruct (li_neg l) eqn:N; cbn [bapp].
    + rewrite lex_exp_neg; [reflexivity|exact X0|exact X|apply lex_end_digit, Q1].
    + rewrite lex_exp_pos; [reflexivity|exact X0|exact X|apply lex_end_digit, Q1].
Qed.
Theorem literal_value l t : maple_literal l -> lex_end t -> lex_num (short_text l +++ t) = lex_num (lit_text l +++ t).
Proof. intros H Q. rewrite (lex_short l t H Q), (lex_literal l t H Q). reflexivity. Qed.
