(** Rules 7 and 8 of [post_process] (/repo/gen_repo/impl/gen_py.py:32-37) on a line with one cube
    root. *)
From Coq Require Import Strings.Byte List Bool NArith ZArith QArith Lia PeanoNat.
From Verif Require Import Bytes Syntax Parser PostProcess PostFast Semantics Literals LiteralsThm ParserThm CubeRoots.
Import ListNotations.

(** ** Tokens of text followed by a closing parenthesis or a space *)
Definition stop (b : byte) : bool := match b with ")" | " " => true | _ => false end%byte.
Lemma span_app_stop f t s : starts f s = false -> span f (t +++ s) = (fst (span f t), snd (span f t) +++ s).
Proof.
  intros H. induction t as [|b t IH]; cbn [bapp span].
  - destruct s as [|c s]; [reflexivity|]. cbn [starts] in H. cbn [span]. rewrite H. reflexivity.
  - destruct (f b); [|reflexivity]. rewrite IH. destruct (span f t). reflexivity.
Qed.
Definition is_minus (b : byte) : bool := match b with "-" => true | _ => false end%byte.
Lemma lex_exp_def s : lex_exp s =
  match s with
  | bcons b s1 => if is_e b then
      let neg := starts is_minus s1 in
      let s2 := if neg then match s1 with bcons _ s2 => s2 | bnil => bnil end else s1 in
      let '(d, r) := span is_digit s2 in match d with bnil => (false, bnil, s) | _ => (neg, d, r) end
    else (false, bnil, s)
  | bnil => (false, bnil, s)
  end.
Proof.
  destruct s as [|b s1]; [reflexivity|]. destruct (is_e b) eqn:E; [|unfold lex_exp; destruct b; try reflexivity; discriminate E].
  rewrite (is_e_eq _ E). unfold lex_exp. destruct s1 as [|c s2]; [reflexivity|]. cbn [starts].
  destruct (is_minus c) eqn:M; [destruct c; try discriminate M; reflexivity|]. destruct (span is_digit (bcons c s2)) as [d r]. destruct c; try discriminate M; destruct d; reflexivity.
Qed.
Lemma stop_not f s : (forall b, stop b = true -> f b = false) -> starts stop s = true -> starts f s = false.
Proof. intros H. destruct s as [|b s]; [discriminate|]. apply H. Qed.
Lemma stop_digit b : stop b = true -> is_digit b = false. Proof. destruct b; try discriminate; reflexivity. Qed.
Lemma stop_id b : stop b = true -> id_cont b = false. Proof. destruct b; try discriminate; reflexivity. Qed.
Lemma stop_e b : stop b = true -> is_e b = false. Proof. destruct b; try discriminate; reflexivity. Qed.
Lemma stop_minus b : stop b = true -> is_minus b = false. Proof. destruct b; try discriminate; reflexivity. Qed.
Lemma lex_exp_stop t s : starts stop s = true -> lex_exp (t +++ s) = let '(n, e, r) := lex_exp t in (n, e, r +++ s).
Proof.
  intros H. destruct t as [|b t]; [cbn [bapp]; rewrite lex_exp_no_e; [reflexivity|apply (stop_not is_e s stop_e H)]|].
  rewrite !lex_exp_def. cbn [bapp]. destruct (is_e b); [|reflexivity].
  assert (D : starts is_digit s = false) by apply (stop_not is_digit s stop_digit H).
  destruct t as [|c t].
  - cbn [bapp starts]. rewrite (stop_not is_minus s stop_minus H). destruct s as [|c s]; [discriminate|]. cbn [starts] in D. cbn [span]. rewrite D. reflexivity.
  - cbn [bapp starts]. destruct (is_minus c).
    + rewrite (span_app_stop is_digit t s D). destruct (span is_digit t) as [d r]. destruct d; reflexivity.
    + change (bcons c (t +++ s)) with (bcons c t +++ s). rewrite (span_app_stop is_digit (bcons c t) s D). destruct (span is_digit (bcons c t)) as [d r]. destruct d; reflexivity.
Qed.
Lemma frac_stop t s : starts stop s = true -> frac (t +++ s) = (fst (frac t), snd (frac t) +++ s).
Proof.
  intros H. destruct t as [|c t].
  - cbn [bapp]. destruct s as [|c s]; [discriminate|]. destruct (Byte.eqb c ".") eqn:E; [apply byte_eqb_eq in E; subst c; discriminate H|]. rewrite frac_other by exact E. reflexivity.
  - cbn [bapp]. destruct (Byte.eqb c ".") eqn:E; [apply byte_eqb_eq in E; subst c; rewrite !frac_dot; apply span_app_stop, (stop_not is_digit s stop_digit H)|].
    rewrite !frac_other by exact E. reflexivity.
Qed.
Lemma lex_num_stop t s : starts stop s = true -> lex_num (t +++ s) = (fst (lex_num t), snd (lex_num t) +++ s).
Proof.
  intros H. unfold lex_num. rewrite (span_app_stop is_digit t s (stop_not is_digit s stop_digit H)). destruct (span is_digit t) as [ip r]. cbn [fst snd].
  fold (frac (r +++ s)). fold (frac r). rewrite (frac_stop r s H). destruct (frac r) as [fp w]. cbn [fst snd]. rewrite (lex_exp_stop w s H). destruct (lex_exp w) as [[n e] u]. reflexivity.
Qed.
Lemma step_stop b t s : starts stop s = true -> step b (t +++ s) = step_app (step b t) s.
Proof.
  intros H. unfold step. destruct (is_space b); [reflexivity|]. destruct (is_digit b).
  { change (bcons b (t +++ s)) with (bcons b t +++ s). rewrite (lex_num_stop (bcons b t) s H). destruct (lex_num (bcons b t)). reflexivity. }
  destruct (is_alpha b).
  { change (bcons b (t +++ s)) with (bcons b t +++ s). rewrite (span_app_stop id_cont (bcons b t) s (stop_not id_cont s stop_id H)). destruct (span id_cont (bcons b t)). reflexivity. }
  destruct t as [|c t]; [|destruct b; try reflexivity; destruct c; reflexivity].
  cbn [bapp]. destruct s as [|c s]; [discriminate|]. cbn [starts] in H.
  assert (E : Byte.eqb c "*" = false /\ Byte.eqb c "=" = false) by (destruct c; try discriminate H; split; reflexivity). destruct E as (E1 & E2).
  destruct b; try reflexivity; destruct c; try reflexivity; discriminate.
Qed.
Lemma step_suffix b t : step b t = Stuck \/ exists x, bcons b t = x +++ rest (step b t).
Proof.
  unfold step. destruct (is_space b); [right; exists (bcons b bnil); reflexivity|]. destruct (is_digit b) eqn:D.
  { right. destruct (lex_num (bcons b t)) as [q r] eqn:E. cbn [rest]. unfold lex_num in E. pose proof (span_app is_digit (bcons b t)) as S1. destruct (span is_digit (bcons b t)) as [ip w].
    cbn [fst snd] in S1. fold (frac w) in E. assert (S2 : exists y, w = y +++ snd (frac w)).
    { destruct w as [|c w]; [exists bnil; reflexivity|]. destruct (Byte.eqb c ".") eqn:Ec; [apply byte_eqb_eq in Ec; subst c; rewrite frac_dot|rewrite frac_other by exact Ec; exists bnil; reflexivity].
      exists (bcons "." (fst (span is_digit w))). cbn [bapp]. rewrite span_app. reflexivity. }
    destruct (frac w) as [fp u]. destruct S2 as (y & S2). cbn [snd] in S2. assert (S3 : exists z, u = z +++ snd (lex_exp u)).
    { rewrite lex_exp_def. destruct u as [|c u]; [exists bnil; reflexivity|]. destruct (is_e c); [|exists bnil; reflexivity].
      cbn zeta. set (s2 := if starts is_minus u then _ else u). pose proof (span_app is_digit s2) as S4. destruct (span is_digit s2) as [d r']. cbn [fst snd] in S4.
      destruct d as [|d0 d]; [exists bnil; reflexivity|]. cbn [snd]. unfold s2 in S4. destruct u as [|c' u]; [discriminate S4|]. destruct (starts is_minus (bcons c' u)).
      - exists (bcons c (bcons c' (bcons d0 d))). cbn [bapp] in *. rewrite S4. reflexivity.
      - exists (bcons c (bcons d0 d)). cbn [bapp] in *. rewrite S4. reflexivity. }
    destruct (lex_exp u) as [[n0 e0] u']. destruct S3 as (z & S3). cbn [snd] in S3. injection E as <- <-. exists (ip +++ y +++ z). rewrite !bapp_assoc, <- S3, <- S2. symmetry. exact S1. }
  destruct (is_alpha b).
  { right. pose proof (span_app id_cont (bcons b t)) as S1. destruct (span id_cont (bcons b t)) as [x r]. exists x. symmetry. exact S1. }
  destruct b; try (left; reflexivity); try (right; eexists (bcons _ bnil); reflexivity);
    (destruct t as [|c t]; [right; eexists (bcons _ bnil); reflexivity|]); destruct c; right; first [eexists (bcons _ bnil); reflexivity|eexists (bcons _ (bcons _ bnil)); reflexivity].
Qed.
Theorem tokens_stop : forall n t s, (blen t <= n)%nat -> starts stop s = true ->
  tokens (t +++ s) = match tokens t, tokens s with Some a, Some b => Some (a ++ b) | _, _ => None end.
Proof.
  induction n as [|n IH]; intros t s L H; (destruct t as [|b t]; [rewrite tokens_nil; cbn [bapp]; destruct (tokens s); reflexivity|]); [cbn in L; lia|].
  cbn [bapp]. rewrite !tokens_step. rewrite (step_stop b t s H). pose proof (step_len b t) as Lr.
  destruct (step b t) as [r|k r|]; cbn [step_app rest] in *; [apply IH; [cbn in L; lia|exact H]| |reflexivity].
  rewrite IH; [|cbn in L; lia|exact H]. destruct (tokens r), (tokens s); reflexivity.
Qed.

(** ** Parentheses of text and of tokens *)
Fixpoint tdepth (d : nat) (s : bstr) : option nat :=
  match s with
  | bnil => Some d
  | bcons b s => if Byte.eqb b ")" then match d with O => None | S d => tdepth d s end else tdepth (if Byte.eqb b "(" then S d else d) s
  end.
Lemma tdepth_app a : forall d b, tdepth d (a +++ b) = match tdepth d a with Some d' => tdepth d' b | None => None end.
Proof. induction a as [|c a IH]; intros d b; [reflexivity|]. cbn [bapp tdepth]. destruct (Byte.eqb c ")"); [destruct d; [reflexivity|apply IH]|apply IH]. Qed.
Lemma tdepth_plus a : forall d d' k, tdepth d a = Some d' -> tdepth (d + k) a = Some (d' + k)%nat.
Proof.
  induction a as [|c a IH]; intros d d' k H; [injection H as <-; reflexivity|]. cbn [tdepth] in *. destruct (Byte.eqb c ")").
  - destruct d; [discriminate|]. cbn. apply IH, H.
  - destruct (Byte.eqb c "("); [apply (IH (S d)), H|apply IH, H].
Qed.
Definition paren (b : byte) : bool := Byte.eqb b "(" || Byte.eqb b ")".
Lemma tdepth_flat x d s : all_b (fun b => negb (paren b)) x = true -> tdepth d (x +++ s) = tdepth d s.
Proof.
  induction x as [|b x IH]; [reflexivity|]. cbn [all_b bapp tdepth]. unfold paren. intros H. apply andb_prop in H. destruct H as (A & B).
  apply negb_true_iff, orb_false_iff in A. destruct A as (A1 & A2). rewrite A1, A2. apply IH, B.
Qed.
Lemma id_flat b : id_cont b = true -> negb (paren b) = true. Proof. destruct b; try discriminate; reflexivity. Qed.
Lemma span_flat f s : (forall b, f b = true -> negb (paren b) = true) -> all_b (fun b => negb (paren b)) (fst (span f s)) = true.
Proof. intros H. induction s as [|b s IH]; [reflexivity|]. cbn [span]. destruct (f b) eqn:E; [|reflexivity]. destruct (span f s). cbn [fst all_b] in *. rewrite (H b E), IH. reflexivity. Qed.
Lemma digit_flat b : is_digit b = true -> negb (paren b) = true. Proof. intros H. apply id_flat, digit_id, H. Qed.
Lemma tdepth_span f s d : (forall b, f b = true -> negb (paren b) = true) -> tdepth d s = tdepth d (snd (span f s)).
Proof. intros H. rewrite <- (span_app f s) at 1. apply tdepth_flat, span_flat, H. Qed.
Lemma tdepth_lex_num d s : tdepth d s = tdepth d (snd (lex_num s)).
Proof.
  unfold lex_num. rewrite (tdepth_span is_digit s d digit_flat). destruct (span is_digit s) as [ip w]. cbn [snd]. fold (frac w).
  assert (E : tdepth d w = tdepth d (snd (frac w))).
  { destruct w as [|c w]; [reflexivity|]. destruct (Byte.eqb c ".") eqn:Ec; [apply byte_eqb_eq in Ec; subst c; rewrite frac_dot|rewrite frac_other by exact Ec; reflexivity].
    change (tdepth d w = tdepth d (snd (span is_digit w))). apply tdepth_span, digit_flat. }
  rewrite E. destruct (frac w) as [fp u]. cbn [snd]. assert (E2 : tdepth d u = tdepth d (snd (lex_exp u))).
  { rewrite lex_exp_def. destruct u as [|c u]; [reflexivity|]. destruct (is_e c) eqn:Ec; [|reflexivity]. rewrite (is_e_eq _ Ec).
    cbn zeta. set (s2 := if starts is_minus u then _ else u). pose proof (tdepth_span is_digit s2 d digit_flat) as S4. destruct (span is_digit s2) as [x r']. cbn [fst snd] in S4.
    destruct x as [|x0 x]; [reflexivity|]. cbn [snd]. rewrite <- S4. change (tdepth d u = tdepth d s2). unfold s2. destruct u as [|c' u]; [reflexivity|]. cbn [starts].
    destruct (is_minus c') eqn:M; [|reflexivity]. destruct c'; try discriminate M. reflexivity. }
  rewrite E2. destruct (lex_exp u) as [[n0 e0] u']. reflexivity.
Qed.
Lemma step_depth b s d : match step b s with
  | Skip r => tdepth d (bcons b s) = tdepth d r
  | Token TLp r => tdepth d (bcons b s) = tdepth (S d) r
  | Token TRp r => tdepth d (bcons b s) = match d with O => None | S d => tdepth d r end
  | Token _ r => tdepth d (bcons b s) = tdepth d r
  | Stuck => True
  end.
Proof.
  unfold step. destruct (is_space b) eqn:Sp; [destruct b; try discriminate Sp; reflexivity|]. destruct (is_digit b) eqn:D.
  { pose proof (tdepth_lex_num d (bcons b s)) as H. destruct (lex_num (bcons b s)). exact H. }
  destruct (is_alpha b) eqn:A.
  { pose proof (tdepth_span id_cont (bcons b s) d id_flat) as H. destruct (span id_cont (bcons b s)). exact H. }
  destruct b; try exact I; try reflexivity; (destruct s as [|c s]; [reflexivity|]; destruct c; reflexivity).
Qed.
Theorem tokens_depth : forall n s G d, (blen s <= n)%nat -> tokens s = Some G -> depth d G = tdepth d s.
Proof.
  induction n as [|n IH]; intros s G d L H; (destruct s as [|b s]; [injection H as <-; reflexivity|]); [cbn in L; lia|].
  rewrite tokens_step in H. pose proof (step_depth b s d) as D. pose proof (step_len b s) as Lr. destruct (step b s) as [r|t r|]; cbn [rest] in Lr; [| |discriminate].
  - rewrite D. apply IH; [cbn in L; lia|exact H].
  - destruct (tokens r) as [l|] eqn:E; [|discriminate]. injection H as <-. assert (IHr : forall d, depth d l = tdepth d r) by (intros d'; apply IH; [cbn in L; lia|exact E]).
    destruct t; cbn [depth]; rewrite D; auto. destruct d; auto.
Qed.
