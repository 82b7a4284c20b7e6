(** Rules 2 and 3 leave the tokens of a line of Maple output unchanged. *)
From Coq Require Import Strings.Byte List Bool NArith ZArith QArith Qpower Lia PeanoNat.
From Verif Require Import Bytes Syntax Parser PostProcess PostFast Literals.
Import ListNotations.

(** ** The lexer one token at a time *)
Inductive step_res := Skip (r : bstr) | Token (t : tok) (r : bstr) | Stuck.
Definition step (b : byte) (s' : bstr) : step_res :=
  if is_space b then Skip s'
  else if is_digit b then let '(q, r) := lex_num (bcons b s') in Token (TNum q) r
  else if is_alpha b then let '(x, r) := span id_cont (bcons b s') in Token (TId x) r
  else match b, s' with
  | "+", _ => Token TPlus s'
  | "-", _ => Token TMinus s'
  | "*", bcons "*" r => Token TPow r
  | "*", _ => Token TStar s'
  | "/", _ => Token TSlash s'
  | "(", _ => Token TLp s'
  | ")", _ => Token TRp s'
  | ",", _ => Token TComma s'
  | "<", bcons "=" r => Token TLe r
  | "<", _ => Token TLt s'
  | "=", bcons "=" r => Token TEqEq r
  | "=", _ => Token TAssign s'
  | _, _ => Stuck
  end%byte.
Lemma lex_step n b s : lex (S n) (bcons b s) =
  match step b s with Skip r => lex n r | Token t r => match lex n r with Some l => Some (t :: l) | None => None end | Stuck => None end.
Proof.
  cbn [lex]. unfold step. destruct (is_space b); [reflexivity|]. destruct (is_digit b); [destruct (lex_num (bcons b s)); reflexivity|].
  destruct (is_alpha b); [destruct (span id_cont (bcons b s)); reflexivity|].
  destruct b; try reflexivity; destruct s as [|c s]; try reflexivity; destruct c; reflexivity.
Qed.
Lemma span_fst_cons f b s : f b = true -> (blen (snd (span f (bcons b s))) <= blen s)%nat.
Proof. intros H. cbn [span]. rewrite H. pose proof (span_snd_len f s). destruct (span f s). exact H0. Qed.
Lemma lex_exp_len s : (blen (snd (lex_exp s)) <= blen s)%nat.
Proof.
  unfold lex_exp. destruct s as [|c s1]; [cbn; lia|].
  destruct (Byte.eqb c "e") eqn:E; [apply byte_eqb_eq in E; subst|].
  - destruct s1 as [|d s2]; [cbn; lia|]. destruct (Byte.eqb d "-") eqn:D; [apply byte_eqb_eq in D; subst|].
    + pose proof (span_snd_len is_digit s2). destruct (span is_digit s2) as [x r]. destruct x; cbn in *; lia.
    + pose proof (span_snd_len is_digit (bcons d s2)) as L.
      assert (G : forall (x r : bstr), (blen r <= blen (bcons d s2))%nat ->
                (blen (snd (match x with bnil => (false, bnil, bcons "e" (bcons d s2)) | _ => (false, x, r) end)) <= blen (bcons "e" (bcons d s2)))%nat)
        by (intros x r Hr; destruct x; cbn in *; lia).
      specialize (G (fst (span is_digit (bcons d s2))) (snd (span is_digit (bcons d s2))) L).
      destruct (span is_digit (bcons d s2)) as [x r]. cbn [fst snd] in G. destruct d; try exact G. discriminate D.
  - destruct c; try (cbn; lia). discriminate E.
Qed.
Lemma lex_num_len b s : is_digit b = true -> (blen (snd (lex_num (bcons b s))) <= blen s)%nat.
Proof.
  intros H. unfold lex_num. pose proof (span_fst_cons is_digit b s H) as L. destruct (span is_digit (bcons b s)) as [ip r]. cbn [snd] in L.
  assert (G : forall (fp r' : bstr), (blen r' <= blen s)%nat -> (blen (snd (let '(neg, ex, r'') := lex_exp r' in (lit_value ip fp neg ex, r''))) <= blen s)%nat).
  { intros fp r' Hr. pose proof (lex_exp_len r'). destruct (lex_exp r') as [[neg ex] r'']. cbn in *. lia. }
  destruct r as [|c r]; [apply G; cbn; lia|]. destruct (Byte.eqb c ".") eqn:E.
  - apply byte_eqb_eq in E. subst c. pose proof (span_snd_len is_digit r). destruct (span is_digit r) as [fp r']. apply G. cbn in *. lia.
  - destruct c; try (apply G; exact L). discriminate E.
Qed.
Definition rest (x : step_res) : bstr := match x with Skip r | Token _ r => r | Stuck => bnil end.
Lemma step_len b s : (blen (rest (step b s)) <= blen s)%nat.
Proof.
  unfold step. destruct (is_space b); [cbn; lia|]. destruct (is_digit b) eqn:D.
  - pose proof (lex_num_len b s D). destruct (lex_num (bcons b s)). exact H.
  - destruct (is_alpha b) eqn:A.
    + assert (I : id_cont b = true) by (destruct b; try discriminate; reflexivity). pose proof (span_fst_cons id_cont b s I).
      destruct (span id_cont (bcons b s)). exact H.
    + destruct b; try (cbn; lia); destruct s as [|c s]; try (cbn; lia); destruct c; cbn; lia.
Qed.
Lemma lex_irrel : forall n m s, (blen s < n)%nat -> (blen s < m)%nat -> lex n s = lex m s.
Proof.
  induction n as [|n IH]; intros [|m] s A B; try lia. destruct s as [|b s]; [reflexivity|]. rewrite !lex_step. cbn in A, B.
  pose proof (step_len b s) as L. destruct (step b s) as [r|t r|]; cbn [rest] in L; [apply IH; lia| |reflexivity]. rewrite (IH m r) by lia. reflexivity.
Qed.
Definition tokens (s : bstr) : option (list tok) := lex (S (blen s)) s.
Lemma tokens_step b s : tokens (bcons b s) =
  match step b s with Skip r => tokens r | Token t r => match tokens r with Some l => Some (t :: l) | None => None end | Stuck => None end.
Proof.
  unfold tokens. rewrite lex_step. cbn [blen]. pose proof (step_len b s) as L. destruct (step b s) as [r|t r|]; cbn [rest] in L; [| |reflexivity];
    rewrite (lex_irrel _ (S (blen r)) r) by lia; reflexivity.
Qed.

(** ** Text in front of a literal ends a token *)
Definition sep (b : byte) : bool := is_space b || match b with "(" | "," => true | _ => false end%byte.
Fixpoint sep_end (t : bstr) : bool :=
  match t with
  | bnil => false
  | bcons b r => match r with bnil => sep b | bcons c bnil => sep c || (sep b && Byte.eqb c "-") | _ => sep_end r end
  end.
Definition cut (t : bstr) : Prop := t = bnil \/ t = "-"%b \/ sep_end t = true.
Lemma cut_tail b t : cut (bcons b t) -> cut t.
Proof.
  intros [H|[H|H]]; [discriminate|injection H as _ ->; left; reflexivity|]. destruct t as [|c t]; [left; reflexivity|].
  destruct t as [|d t]; [|right; right; exact H]. cbn in H. apply orb_prop in H. destruct H as [H|H].
  - right. right. exact H.
  - apply andb_prop in H. destruct H as (_ & H). apply byte_eqb_eq in H. subst c. right. left. reflexivity.
Qed.
Lemma cut_app x t : cut (x +++ t) -> cut t.
Proof. induction x as [|b x IH]; [auto|]. intros H. apply IH, (cut_tail b), H. Qed.
Lemma sep_not_id b : sep b = true -> id_cont b = false. Proof. destruct b; try discriminate; reflexivity. Qed.
(** A run of identifier characters stops inside the text. *)
Lemma cut_span f t : (forall b, f b = true -> id_cont b = true) -> cut t -> starts f t = true -> exists x c r, span f t = (x, bcons c r) /\ t = x +++ bcons c r.
Proof.
  intros Hf. induction t as [|b t IH]; intros C St; [discriminate|]. cbn [starts] in St. cbn [span]. rewrite St.
  pose proof (cut_tail _ _ C) as Ct. destruct t as [|c t].
  - exfalso. destruct C as [C|[C|C]]; [discriminate|injection C as ->|]; [apply Hf in St; discriminate|]. cbn in C. apply sep_not_id in C. apply Hf in St. congruence.
  - destruct (f c) eqn:Fc.
    + destruct (IH Ct Fc) as (x & d & r & E & Ht). rewrite E. exists (bcons b x), d, r. split; [reflexivity|]. cbn. congruence.
    + cbn [span]. rewrite Fc. exists (bcons b bnil), c, t. split; reflexivity.
Qed.
Lemma span_ext f t x c r s : span f t = (x, bcons c r) -> span f (t +++ s) = (x, bcons c r +++ s).
Proof.
  revert x c r. induction t as [|b t IH]; intros x c r H; cbn [span] in H; [discriminate|]. cbn [bapp span].
  destruct (f b); [|injection H as <- <- <-; reflexivity]. destruct (span f t) as [y w] eqn:E. injection H as <- ->. rewrite (IH _ _ _ eq_refl). reflexivity.
Qed.
Lemma span_none f t s : t <> bnil -> starts f t = false -> span f (t +++ s) = (bnil, t +++ s) /\ span f t = (bnil, t).
Proof. destruct t as [|b t]; [congruence|]. cbn [starts bapp span]. intros _ ->. split; reflexivity. Qed.
(** Spanning the text and spanning it with more behind. *)
Lemma cut_span_any f t s : (forall b, f b = true -> id_cont b = true) -> t <> bnil -> cut t ->
  exists x r, span f t = (x, r) /\ r <> bnil /\ t = x +++ r /\ span f (t +++ s) = (x, r +++ s).
Proof.
  intros Hf N C. destruct (starts f t) eqn:St.
  - destruct (cut_span f t Hf C St) as (x & c & r & E & Ht). exists x, (bcons c r). split; [exact E|]. split; [discriminate|]. split; [exact Ht|]. apply span_ext, E.
  - destruct (span_none f t s N St) as (A & B). exists bnil, t. auto.
Qed.
Lemma digit_id b : is_digit b = true -> id_cont b = true. Proof. destruct b; try discriminate; reflexivity. Qed.
Lemma lex_exp_app t s : t <> bnil -> cut t -> t <> "-"%b \/ True ->
  exists neg ex r, lex_exp t = (neg, ex, r) /\ r <> bnil /\ (exists x, t = x +++ r) /\ lex_exp (t +++ s) = (neg, ex, r +++ s).
Proof.
  intros N C _. destruct t as [|b t]; [congruence|]. destruct (Byte.eqb b "e") eqn:E.
  2:{ exists false, bnil, (bcons b t). split; [|split; [discriminate|split; [exists bnil; reflexivity|]]];
      unfold lex_exp; cbn [bapp]; destruct b; try reflexivity; discriminate E. }
  apply byte_eqb_eq in E. subst b. pose proof (cut_tail _ _ C) as Ct.
  destruct t as [|c t]. { exfalso. destruct C as [C|[C|C]]; try discriminate C. }
  destruct (Byte.eqb c "-") eqn:D.
  - apply byte_eqb_eq in D. subst c. destruct t as [|d t]. { exfalso. destruct C as [C|[C|C]]; try discriminate C. }
    pose proof (cut_tail _ _ Ct) as Ctt. destruct (cut_span_any is_digit (bcons d t) s digit_id ltac:(discriminate) Ctt) as (x & r & A & R & T & B).
    cbn [bapp] in B. cbn [lex_exp bapp]. rewrite A, B. destruct x as [|y x].
    + exists false, bnil, (bcons "e" (bcons "-" (bcons d t))). split; [reflexivity|]. split; [discriminate|]. split; [exists bnil; reflexivity|reflexivity].
    + exists true, (bcons y x), r. split; [reflexivity|]. split; [exact R|]. split; [|reflexivity]. exists (bcons "e" (bcons "-" (bcons y x))). cbn. cbn in T. congruence.
  - destruct (cut_span_any is_digit (bcons c t) s digit_id ltac:(discriminate) Ct) as (x & r & A & R & T & B). cbn [bapp] in B.
    assert (L : forall u, Byte.eqb c "-" = false -> lex_exp (bcons "e" (bcons c u)) = match fst (span is_digit (bcons c u)) with bnil => (false, bnil, bcons "e" (bcons c u)) | d => (false, d, snd (span is_digit (bcons c u))) end).
    { intros u Hc. unfold lex_exp. destruct (span is_digit (bcons c u)) as [y w] eqn:Sp. cbn [fst snd]. destruct c; try discriminate Hc; rewrite ?Sp; destruct y; reflexivity. }
    cbn [bapp]. rewrite !L by exact D. rewrite A, B. cbn [fst snd]. destruct x as [|y x].
    + exists false, bnil, (bcons "e" (bcons c t)). split; [reflexivity|]. split; [discriminate|]. split; [exists bnil; reflexivity|reflexivity].
    + exists false, (bcons y x), r. split; [reflexivity|]. split; [exact R|]. split; [|reflexivity]. exists (bcons "e" (bcons y x)). cbn. cbn in T. congruence.
Qed.
Definition frac (r : bstr) : bstr * bstr := match r with bcons "." r' => span is_digit r' | _ => (bnil, r) end.
Lemma frac_dot r : frac (bcons "." r) = span is_digit r. Proof. reflexivity. Qed.
Lemma frac_other c r : Byte.eqb c "." = false -> frac (bcons c r) = (bnil, bcons c r). Proof. intros H. unfold frac. destruct c; try reflexivity; discriminate H. Qed.
Lemma lex_num_app t s : cut t -> starts is_digit t = true ->
  exists q r, lex_num t = (q, r) /\ r <> bnil /\ (exists x, t = x +++ r) /\ lex_num (t +++ s) = (q, r +++ s).
Proof.
  intros C St. assert (N : t <> bnil) by (destruct t; discriminate). unfold lex_num.
  destruct (cut_span_any is_digit t s digit_id N C) as (ip & r & A & R & T & B). rewrite A, B. fold (frac r). fold (frac (r +++ s)).
  assert (Cr : cut r) by (apply (cut_app ip); rewrite <- T; exact C).
  assert (G : exists fp w, frac r = (fp, w) /\ w <> bnil /\ (exists x, r = x +++ w) /\ frac (r +++ s) = (fp, w +++ s)).
  { destruct r as [|c r]; [congruence|]. cbn [bapp]. destruct (Byte.eqb c ".") eqn:E.
    - apply byte_eqb_eq in E. subst c. rewrite !frac_dot. destruct r as [|d r]. { exfalso. destruct Cr as [Cr|[Cr|Cr]]; discriminate Cr. }
      destruct (cut_span_any is_digit (bcons d r) s digit_id ltac:(discriminate) (cut_tail _ _ Cr)) as (x & w & A' & R' & T' & B').
      exists x, w. split; [exact A'|]. split; [exact R'|]. split; [exists (bcons "." x); cbn; congruence|exact B'].
    - rewrite !frac_other by exact E. exists bnil, (bcons c r). split; [reflexivity|]. split; [discriminate|]. split; [exists bnil; reflexivity|reflexivity]. }
  destruct G as (fp & w & E1 & Nw & (x & Hx) & E2). rewrite E1, E2.
  assert (Cw : cut w) by (apply (cut_app x); rewrite <- Hx; exact Cr).
  destruct (lex_exp_app w s Nw Cw (or_intror I)) as (neg & ex & v & E3 & Nv & (y & Hy) & E4). rewrite E3, E4.
  exists (lit_value ip fp neg ex), v. split; [reflexivity|]. split; [exact Nv|]. split; [|reflexivity].
  exists (ip +++ x +++ y). rewrite !bapp_assoc, <- Hy, <- Hx. exact T.
Qed.
Definition step_app (x : step_res) (s : bstr) : step_res := match x with Skip r => Skip (r +++ s) | Token t r => Token t (r +++ s) | Stuck => Stuck end.
Lemma alpha_id b : is_alpha b = true -> id_cont b = true. Proof. destruct b; try discriminate; reflexivity. Qed.
Lemma step_cut b t s : cut (bcons b t) ->
  step b (t +++ s) = step_app (step b t) s /\ (exists x, bcons b t = x +++ rest (step b t) \/ step b t = Stuck).
Proof.
  intros C. unfold step. destruct (is_space b) eqn:Sp; [split; [reflexivity|exists (bcons b bnil); left; reflexivity]|].
  destruct (is_digit b) eqn:D.
  - destruct (lex_num_app (bcons b t) s C D) as (q & r & E & _ & (x & Hx) & E'). cbn [bapp] in E'. rewrite E, E'. split; [reflexivity|]. exists x. left. exact Hx.
  - destruct (is_alpha b) eqn:A.
    + destruct (cut_span_any id_cont (bcons b t) s (fun _ H => H) ltac:(discriminate) C) as (x & r & E & _ & Hx & E'). cbn [bapp] in E'. rewrite E, E'.
      split; [reflexivity|]. exists x. left. exact Hx.
    + destruct b; try discriminate A; try discriminate D; try discriminate Sp;
        try (split; [reflexivity|eexists (bcons _ bnil); left; reflexivity]); try (split; [reflexivity|exists bnil; right; reflexivity]);
        (destruct t as [|c t]; [exfalso; destruct C as [C|[C|C]]; discriminate C|]);
        destruct c; (split; [reflexivity|first [eexists (bcons _ bnil); left; reflexivity | eexists (bcons _ (bcons _ bnil)); left; reflexivity]]).
Qed.
Lemma tokens_nil : tokens bnil = Some []. Proof. reflexivity. Qed.
Theorem tokens_app : forall n t s, (blen t <= n)%nat -> cut t ->
  tokens (t +++ s) = match tokens t, tokens s with Some a, Some b => Some (a ++ b) | _, _ => None end.
Proof.
  induction n as [|n IH]; intros t s L C; (destruct t as [|b t]; [rewrite tokens_nil; cbn [bapp]; destruct (tokens s); reflexivity|]); [cbn in L; lia|].
  cbn [bapp]. rewrite !tokens_step. destruct (step_cut b t s C) as (E & (x & H)). rewrite E. pose proof (step_len b t) as Lr.
  destruct (step b t) as [r|k r|]; cbn [step_app rest] in *.
  - rewrite IH; [reflexivity|cbn in L; lia|]. destruct H as [H|H]; [|discriminate]. apply (cut_app x). rewrite <- H. exact C.
  - rewrite IH; [|cbn in L; lia|].
    + destruct (tokens r), (tokens s); reflexivity.
    + destruct H as [H|H]; [|discriminate]. apply (cut_app x). rewrite <- H. exact C.
  - reflexivity.
Qed.
Lemma starts_digit_lit l s : maple_literal l -> starts is_digit (lit_text l +++ s) = true /\ starts is_digit (short_text l +++ s) = true.
Proof.
  intros (I0 & I & _). unfold lit_text, short_text. destruct (li_int l) as [|b i]; [congruence|]. cbn in I. apply andb_prop in I. destruct I as (I & _).
  cbn. auto.
Qed.
Lemma tokens_num s b t q r : s = bcons b t -> is_digit b = true -> lex_num s = (q, r) -> tokens s = match tokens r with Some l => Some (TNum q :: l) | None => None end.
Proof.
  intros -> D E. rewrite tokens_step. unfold step. assert (is_space b = false) as -> by (destruct b; try discriminate; reflexivity).
  rewrite D, E. reflexivity.
Qed.
Lemma lit_tokens l s : maple_literal l -> quiet_start s -> tokens (lit_text l +++ s) = match tokens s with Some r => Some (TNum (lit_Q l) :: r) | None => None end /\
  tokens (short_text l +++ s) = match tokens s with Some r => Some (TNum (lit_Q l) :: r) | None => None end.
Proof.
  intros M (Q1 & Q2). destruct (starts_digit_lit l s M) as (A & B). split.
  - pose proof (lex_literal l s M (conj Q2 Q1)) as E. destruct (lit_text l +++ s) as [|b t] eqn:H; [discriminate A|]. apply (tokens_num _ b t _ _ eq_refl A E).
  - pose proof (lex_short l s M (conj Q2 Q1)) as E. destruct (short_text l +++ s) as [|b t] eqn:H; [discriminate B|]. apply (tokens_num _ b t _ _ eq_refl B E).
Qed.
(** Lines of Maple output: literals after text that ends with a space, an opening parenthesis, a
    comma, or one of these and a minus sign. *)
Definition maple_line (l : list (bstr * literal)) (last : bstr) : Prop :=
  line_ok l last /\ Forall (fun p => sep_end (fst p) = true) l.
Lemma quiet_short l last : line_ok l last -> quiet_start (short_line l last).
Proof.
  intros (F & A & B & Q). destruct l as [|[t n] l]; [exact Q|]. inversion F as [|? ? ((_ & _ & E) & H & _) _]; subst. cbn [fst] in *.
  cbn [short_line]. destruct H as (H1 & H2). destruct t as [|b t]; [discriminate|]. split; assumption.
Qed.
Theorem line_tokens l last : maple_line l last -> tokens (short_line l last) = tokens (line l last).
Proof.
  induction l as [|[t n] l IH]; intros (H & F); [reflexivity|]. pose proof (line_ok_tail _ _ _ H) as Ht. inversion F; subst. cbn [fst] in *.
  specialize (IH (conj Ht H3)). assert (M : maple_literal n) by (destruct H as (G & _); inversion G as [|? ? (_ & _ & M) _]; exact M).
  cbn [line short_line]. assert (C : cut t) by (right; right; assumption).
  destruct (starts_digit_lit n (line l last) M) as (A & _). destruct (starts_digit_lit n (short_line l last) M) as (_ & B).
  rewrite !(tokens_app _ t _ (Nat.le_refl _) C).
  destruct (lit_tokens n (line l last) M (quiet_line _ _ Ht)) as (E & _). destruct (lit_tokens n (short_line l last) M (quiet_short _ _ Ht)) as (_ & E').
  rewrite E, E', IH. reflexivity.
Qed.
Theorem line_parsed v l last : maple_line l last -> parse_line v (rule_e0 (rule_zeros (line l last))) = parse_line v (line l last).
Proof.
  intros H. rewrite (line_rewritten l last (proj1 H)). pose proof (line_tokens l last H) as T. unfold parse_line. unfold tokens in T. rewrite T. reflexivity.
Qed.

(** The number a literal writes: its digits times ten to the exponent less the number of fraction
    digits. *)
Fixpoint digits_Z (acc : Z) (s : bstr) : Z := match s with bnil => acc | bcons b s => digits_Z (acc * 10 + (Z.of_N (code b) - 48)) s end.
Definition lit_number (l : literal) : Q :=
  inject_Z (digits_Z 0 (li_int l +++ li_frac l)) *
  Qpower (10 # 1) ((if li_neg l then - digits_Z 0 (li_exp l) else digits_Z 0 (li_exp l)) - Z.of_nat (blen (li_frac l))).
Lemma digits_Z_N s : forall acc, all_b is_digit s = true -> digits_Z (Z.of_N acc) s = Z.of_N (digits_N acc s).
Proof.
  induction s as [|b s IH]; intros acc D; [reflexivity|]. cbn [all_b] in D. apply andb_prop in D. destruct D as (Db & D). cbn [digits_Z digits_N].
  rewrite <- (IH _ D). f_equal. unfold digit_val. rewrite N2Z.inj_add, N2Z.inj_mul. f_equal. rewrite N2Z.inj_sub; [reflexivity|].
  destruct b; try discriminate Db; vm_compute; discriminate.
Qed.
Lemma p10_power n : (Zpos (p10 n) # 1) == Qpower (10 # 1) (Z.of_N n).
Proof.
  destruct n as [|p]; [reflexivity|]. cbn [p10 Z.of_N]. change (10 # 1) with (inject_Z 10). rewrite <- Zpower_Qpower by discriminate.
  unfold inject_Z. rewrite Pos2Z.inj_pow. reflexivity.
Qed.
Lemma ten0 : ~ 10 # 1 == 0. Proof. discriminate. Qed.
Lemma p10_inv n m : (m # p10 n) == inject_Z m * Qpower (10 # 1) (- Z.of_N n).
Proof. rewrite Qpower_opp, <- p10_power. unfold Qeq, Qinv, Qmult, inject_Z; cbn. lia. Qed.
Theorem lit_Q_number l : maple_literal l -> lit_Q l == lit_number l.
Proof.
  intros (I0 & I & F & X0 & X & _). unfold lit_Q, lit_value, lit_number. change 0%Z with (Z.of_N 0).
  rewrite !digits_Z_N by (rewrite ?all_b_app, ?I, ?F; auto). set (m := digits_N 0 (li_int l +++ li_frac l)). set (e := digits_N 0 (li_exp l)).
  destruct (li_neg l); rewrite Qred_correct.
  - rewrite p10_inv. replace (- Z.of_N e - Z.of_nat (blen (li_frac l)))%Z with (- Z.of_N (N.of_nat (blen (li_frac l)) + e))%Z by lia. reflexivity.
  - rewrite p10_inv. rewrite inject_Z_mult. change (inject_Z (Zpos (p10 e))) with (Zpos (p10 e) # 1). rewrite p10_power.
    rewrite <- Qmult_assoc, <- Qpower_plus by exact ten0. replace (Z.of_N e + - Z.of_N (N.of_nat (blen (li_frac l))))%Z with (Z.of_N e - Z.of_nat (blen (li_frac l)))%Z by lia. reflexivity.
Qed.
(** A literal alone: the rewritten text denotes the number and nothing else is read. *)
Theorem literal_kept l : maple_literal l ->
  exists q, tokens (lit_text l) = Some [TNum q] /\ tokens (rule_e0 (rule_zeros (lit_text l))) = Some [TNum q] /\ q == lit_number l.
Proof.
  intros M. exists (lit_Q l). split; [|split; [|apply lit_Q_number, M]].
  - pose proof (proj1 (lit_tokens l bnil M (conj eq_refl eq_refl))) as H. rewrite bapp_nil_r in H. exact H.
  - assert (rule_e0 (rule_zeros (lit_text l)) = short_text l) as ->.
    { rewrite rule_e0_fe, rule_zeros_fz. destruct (literal_rewritten l bnil M (conj eq_refl eq_refl)) as (A & B). rewrite bapp_nil_r in A, B. cbn [fz fe] in A, B. rewrite !bapp_nil_r in A, B. rewrite A, B. reflexivity. }
    pose proof (proj2 (lit_tokens l bnil M (conj eq_refl eq_refl))) as H. rewrite bapp_nil_r in H. exact H.
Qed.

(** ** Literals Maple does not write *)
Definition plain_literal (l : literal) : Prop :=
  li_int l <> bnil /\ all_b is_digit (li_int l) = true /\ all_b is_digit (li_frac l) = true /\ li_exp l <> bnil /\ all_b is_digit (li_exp l) = true.
(** 0.15e05 becomes 0.155. *)
Theorem leading_zero_refuted :
  ~ forall l, plain_literal l -> tokens (rule_e0 (rule_zeros (lit_text l))) = tokens (lit_text l).
Proof.
  intros H. specialize (H (Literal "0" "15" false "05")). assert (P : plain_literal (Literal "0" "15" false "05")) by (repeat split; discriminate || reflexivity).
  specialize (H P). vm_compute in H. discriminate H.
Qed.
(** 100e1 becomes 1e1. *)
Theorem no_point_refuted :
  ~ forall m e, m <> bnil -> e <> bnil -> all_b is_digit m = true -> all_b is_digit e = true ->
      tokens (rule_e0 (rule_zeros (m +++ "e" +++ e))) = tokens (m +++ "e" +++ e).
Proof. intros H. specialize (H "100"%b "1"%b). vm_compute in H. assert (N : forall b s, bcons b s <> bnil) by discriminate. specialize (H (N _ _) (N _ _) eq_refl eq_refl). discriminate H. Qed.
