(** The tokens of a text: from left to right the longest piece that is a token, blanks apart (Python
    reference manual, section 2), and the proof that the lexer finds them. *)
From Coq Require Import Strings.Byte List Bool NArith ZArith QArith Qpower Lia.
From Verif Require Import Bytes Syntax Parser PostProcess PostFast Literals LiteralsThm.
Import ListNotations.

(** ** Numbers: digits, perhaps a point and digits, perhaps an exponent *)
Definition frac_text (f : option bstr) : bstr := match f with None => bnil | Some d => bcons "." d end.
Definition exp_text (e : option (bool * bstr)) : bstr :=
  match e with None => bnil | Some (neg, d) => bcons "e" ((if neg then "-"%b else bnil) +++ d) end.
Definition written (ip : bstr) (f : option bstr) (e : option (bool * bstr)) : Q :=
  lit_number (Literal ip (match f with None => bnil | Some d => d end)
    (match e with Some (true, _) => true | _ => false end) (match e with None => bnil | Some (_, d) => d end)).
Definition frac_ok (f : option bstr) : Prop := match f with None => True | Some d => all_b is_digit d = true end.
Definition exp_ok (e : option (bool * bstr)) : Prop := match e with None => True | Some (_, d) => d <> bnil /\ all_b is_digit d = true end.
Definition number (x : bstr) (q : Q) : Prop := exists ip f e,
  ip <> bnil /\ all_b is_digit ip = true /\ frac_ok f /\ exp_ok e /\ x = ip +++ frac_text f +++ exp_text e /\ q = Qred (written ip f e).

(** ** Tokens *)
Definition symbols : list (bstr * tok) := [
  ("+", TPlus); ("-", TMinus); ("*", TStar); ("**", TPow); ("/", TSlash); ("<=", TLe); ("<", TLt); ("==", TEqEq); ("=", TAssign);
  ("(", TLp); (")", TRp); (",", TComma)]%b.
Inductive spelt : bstr -> tok -> Prop :=
| s_symbol x t : In (x, t) symbols -> spelt x t
| s_word b x : is_alpha b = true -> all_b id_cont x = true -> spelt (bcons b x) (TId (bcons b x))
| s_number x q : number x q -> spelt x (TNum q).
Definition longest (x s : bstr) : Prop := forall y z t, s = y +++ z -> spelt (x +++ y) t -> y = bnil.
Inductive tokenised : bstr -> list tok -> Prop :=
| z_end : tokenised bnil []
| z_blank b s ts : is_space b = true -> tokenised s ts -> tokenised (bcons b s) ts
| z_token x t s ts : spelt x t -> longest x s -> tokenised s ts -> tokenised (x +++ s) (t :: ts).

(** ** Numbers as the lexer reads them *)
Lemma lit_value_number ip fp neg ex : all_b is_digit ip = true -> all_b is_digit fp = true -> all_b is_digit ex = true ->
  lit_value ip fp neg ex = Qred (lit_number (Literal ip fp neg ex)).
Proof.
  intros I F X. unfold lit_value, lit_number. cbn [li_int li_frac li_neg li_exp]. change 0%Z with (Z.of_N 0).
  rewrite !digits_Z_N by (rewrite ?all_b_app, ?I, ?F; auto). set (m := digits_N 0 (ip +++ fp)). set (e := digits_N 0 ex).
  destruct neg; apply Qred_complete.
  - rewrite p10_inv. replace (- Z.of_N e - Z.of_nat (blen fp))%Z with (- Z.of_N (N.of_nat (blen fp) + e))%Z by lia. reflexivity.
  - rewrite p10_inv. rewrite inject_Z_mult. change (inject_Z (Zpos (p10 e))) with (Zpos (p10 e) # 1). rewrite p10_power.
    rewrite <- Qmult_assoc, <- Qpower_plus by exact ten0. replace (Z.of_N e + - Z.of_N (N.of_nat (blen fp)))%Z with (Z.of_N e - Z.of_nat (blen fp))%Z by lia. reflexivity.
Qed.
Lemma span_all f s : all_b f (fst (span f s)) = true.
Proof. induction s as [|b s IH]; [reflexivity|]. cbn [span]. destruct (f b) eqn:E; [|reflexivity]. destruct (span f s). cbn in *. rewrite E. exact IH. Qed.
Lemma span_prefix f a z : all_b f a = true -> (blen (snd (span f (a +++ z))) <= blen z)%nat.
Proof.
  induction a as [|b a IH]; [intros _; apply span_snd_len|]. cbn [all_b bapp span]. intros H. apply andb_prop in H. destruct H as (H & K). rewrite H.
  specialize (IH K). destruct (span f (a +++ z)). exact IH.
Qed.
(** The parts of [lex_num]. *)
Definition point (r : bstr) : option bstr * bstr :=
  match r with bcons b r' => if Byte.eqb b "." then (Some (fst (span is_digit r')), snd (span is_digit r')) else (None, r) | bnil => (None, bnil) end.
Definition expo (s : bstr) : option (bool * bstr) * bstr :=
  match s with
  | bcons b s1 => if Byte.eqb b "e" then
      match s1 with
      | bcons c s2 => if Byte.eqb c "-" then match fst (span is_digit s2) with bnil => (None, s) | d => (Some (true, d), snd (span is_digit s2)) end
                      else match fst (span is_digit s1) with bnil => (None, s) | d => (Some (false, d), snd (span is_digit s1)) end
      | bnil => (None, s)
      end else (None, s)
  | bnil => (None, s)
  end.
Lemma lex_exp_expo s : lex_exp s = (match fst (expo s) with Some (true, _) => true | _ => false end, match fst (expo s) with None => bnil | Some (_, d) => d end, snd (expo s)).
Proof.
  destruct s as [|b s1]; [reflexivity|]. cbn [expo]. destruct (Byte.eqb b "e") eqn:B; [apply byte_eqb_eq in B; subst b|destruct b; try reflexivity; discriminate B].
  destruct s1 as [|c s2]; [reflexivity|]. destruct (Byte.eqb c "-") eqn:C; [apply byte_eqb_eq in C; subst c|].
  - cbn [lex_exp]. destruct (span is_digit s2) as [[|d w] r]; reflexivity.
  - assert (E : lex_exp (bcons "e" (bcons c s2)) = let '(d, r) := span is_digit (bcons c s2) in match d with bnil => (false, bnil, bcons "e" (bcons c s2)) | _ => (false, d, r) end)
      by (destruct c; try reflexivity; discriminate C).
    rewrite E. destruct (span is_digit (bcons c s2)) as [[|d w] r]; reflexivity.
Qed.
Lemma lex_num_parts s : lex_num s =
  let ip := fst (span is_digit s) in let p := point (snd (span is_digit s)) in let e := expo (snd p) in
  (lit_value ip (match fst p with None => bnil | Some d => d end) (match fst e with Some (true, _) => true | _ => false end)
     (match fst e with None => bnil | Some (_, d) => d end), snd e).
Proof.
  unfold lex_num. destruct (span is_digit s) as [ip r]. cbn [fst snd].
  assert (E : (match r with bcons "." r' => span is_digit r' | _ => (bnil, r) end)%byte = (match fst (point r) with None => bnil | Some d => d end, snd (point r))).
  { destruct r as [|b r]; [reflexivity|]. cbn [point]. destruct (Byte.eqb b ".") eqn:B; [apply byte_eqb_eq in B; subst b; destruct (span is_digit r); reflexivity|].
    destruct b; try reflexivity; discriminate B. }
  rewrite E, lex_exp_expo. reflexivity.
Qed.
Lemma point_sound r : r = frac_text (fst (point r)) +++ snd (point r) /\ frac_ok (fst (point r)).
Proof.
  destruct r as [|b r]; [split; [reflexivity|exact I]|]. cbn [point]. destruct (Byte.eqb b ".") eqn:B; [|split; [reflexivity|exact I]].
  apply byte_eqb_eq in B. subst b. cbn [fst snd frac_text frac_ok bapp]. rewrite span_app. split; [reflexivity|apply span_all].
Qed.
Lemma expo_sound s : s = exp_text (fst (expo s)) +++ snd (expo s) /\ exp_ok (fst (expo s)).
Proof.
  assert (N : s = exp_text None +++ s /\ exp_ok None) by (split; [reflexivity|exact I]).
  destruct s as [|b s1]; [exact N|]. cbn [expo]. destruct (Byte.eqb b "e") eqn:B; [apply byte_eqb_eq in B; subst b|exact N].
  destruct s1 as [|c s2]; [exact N|]. destruct (Byte.eqb c "-") eqn:C; [apply byte_eqb_eq in C; subst c|].
  - pose proof (span_app is_digit s2) as A. pose proof (span_all is_digit s2) as L. destruct (fst (span is_digit s2)) as [|d w]; [exact N|].
    cbn [fst snd exp_text exp_ok bapp] in *. rewrite A. repeat split; [discriminate|exact L].
  - pose proof (span_app is_digit (bcons c s2)) as A. pose proof (span_all is_digit (bcons c s2)) as L. destruct (fst (span is_digit (bcons c s2))) as [|d w]; [exact N|].
    cbn [fst snd exp_text exp_ok bapp] in *. rewrite A. repeat split; [discriminate|exact L].
Qed.
Lemma digits_none s : fst (span is_digit s) = bnil -> snd (span is_digit s) = s.
Proof. intros H. rewrite <- (span_app is_digit s) at 2. rewrite H. reflexivity. Qed.
Lemma point_len r : (blen (snd (point r)) <= blen r)%nat.
Proof. rewrite (proj1 (point_sound r)) at 2. rewrite blen_app. lia. Qed.
Lemma expo_len r : (blen (snd (expo r)) <= blen r)%nat.
Proof. rewrite (proj1 (expo_sound r)) at 2. rewrite blen_app. lia. Qed.
Lemma digit_start d z : d <> bnil -> all_b is_digit d = true -> exists c r, d +++ z = bcons c r /\ is_digit c = true.
Proof. destruct d as [|c d]; [congruence|]. cbn. intros _ H. apply andb_prop in H. exists c, (d +++ z). split; [reflexivity|apply H]. Qed.
Lemma expo_longest e z : exp_ok e -> (blen (snd (expo (exp_text e +++ z))) <= blen z)%nat.
Proof.
  destruct e as [[neg d]|]; [|intros _; apply expo_len]. intros (N & D). cbn [exp_text bapp]. destruct neg; cbn [bapp].
  - cbn [expo]. rewrite !byte_eqb_refl. pose proof (span_prefix is_digit d z D) as P. destruct (fst (span is_digit (d +++ z))) as [|c w] eqn:E; [|exact P].
    exfalso. destruct d as [|c d]; [congruence|]. cbn in D. apply andb_prop in D. cbn [bapp span] in E. rewrite (proj1 D) in E. destruct (span is_digit (d +++ z)). discriminate.
  - destruct d as [|c d]; [congruence|]. pose proof (span_prefix is_digit _ z D) as P. cbn in D. apply andb_prop in D. destruct D as (C & D).
    cbn [bapp expo] in *. rewrite byte_eqb_refl. assert (M : Byte.eqb c "-" = false) by (destruct c; try reflexivity; discriminate C). rewrite M.
    destruct (fst (span is_digit (bcons c (d +++ z)))) as [|c' w] eqn:E; [|exact P]. exfalso. cbn [span] in E. rewrite C in E. destruct (span is_digit (d +++ z)). discriminate.
Qed.
Lemma stop_after d r : all_b is_digit d = true -> starts is_digit r = false -> fst (span is_digit (d +++ r)) = d /\ snd (span is_digit (d +++ r)) = r.
Proof. intros D S. rewrite (span_stop is_digit d r D S). split; reflexivity. Qed.
Lemma number_longest x q z : number x q -> (blen (snd (lex_num (x +++ z))) <= blen z)%nat.
Proof.
  intros (ip & f & e & N & I & F & E & -> & _). rewrite lex_num_parts. cbn [snd]. rewrite !bapp_assoc.
  destruct f as [d|]; cbn [frac_text bapp].
  - destruct (stop_after ip (bcons "." (d +++ exp_text e +++ z)) I eq_refl) as (_ & ->). cbn [point]. rewrite byte_eqb_refl. cbn [snd].
    destruct e as [[neg k]|].
    + destruct (stop_after d (exp_text (Some (neg, k)) +++ z) F eq_refl) as (_ & ->). apply expo_longest, E.
    + cbn [exp_text bapp]. etransitivity; [apply expo_len|]. apply span_prefix, F.
  - destruct e as [[neg k]|].
    + destruct (stop_after ip (exp_text (Some (neg, k)) +++ z) I eq_refl) as (_ & ->). replace (snd (point (exp_text (Some (neg, k)) +++ z))) with (exp_text (Some (neg, k)) +++ z) by reflexivity.
      apply expo_longest, E.
    + cbn [exp_text bapp]. etransitivity; [apply expo_len|]. etransitivity; [apply point_len|]. apply span_prefix, I.
Qed.
Lemma lex_num_sound s : starts is_digit s = true -> exists x, s = x +++ snd (lex_num s) /\ number x (fst (lex_num s)).
Proof.
  intros S. rewrite lex_num_parts. cbn [fst snd]. set (ip := fst (span is_digit s)). set (p := point (snd (span is_digit s))). set (e := expo (snd p)).
  exists (ip +++ frac_text (fst p) +++ exp_text (fst e)).
  destruct (point_sound (snd (span is_digit s))) as (P & F). destruct (expo_sound (snd p)) as (E & X). fold p in P, F. fold e in E, X. split.
  - rewrite !bapp_assoc, <- E, <- P. symmetry. apply span_app.
  - exists ip, (fst p), (fst e). repeat split; try assumption.
    + unfold ip. destruct s as [|b s]; [discriminate|]. cbn in S. cbn [span]. rewrite S. destruct (span is_digit s). discriminate.
    + apply span_all.
    + unfold written. apply lit_value_number; [apply span_all| |].
      * destruct (fst p); [exact F|reflexivity].
      * destruct (fst e) as [[n d]|]; [apply X|reflexivity].
Qed.
Lemma bapp_same_len x y a b : x +++ a = y +++ b -> blen a = blen b -> x = y /\ a = b.
Proof.
  revert y. induction x as [|c x IH]; intros [|d y] H L; cbn [bapp] in H.
  - split; [reflexivity|exact H].
  - exfalso. subst a. cbn in L. rewrite blen_app in L. lia.
  - exfalso. subst b. cbn in L. rewrite blen_app in L. lia.
  - injection H as -> H. destruct (IH y H L) as (-> & ->). split; reflexivity.
Qed.
Lemma blen_0 s : blen s = 0%nat -> s = bnil. Proof. destruct s; [reflexivity|discriminate]. Qed.
Lemma number_starts x q z : number x q -> starts is_digit (x +++ z) = true.
Proof.
  intros (ip & f & e & N & I & _ & _ & -> & _). destruct ip as [|c ip]; [congruence|]. cbn in *. apply andb_prop in I. apply I.
Qed.
(** The value is determined by the text. *)
Lemma number_value x q : number x q -> fst (lex_num x) = q.
Proof.
  intros (ip & f & e & N & I & F & E & -> & ->). rewrite lex_num_parts. cbn [fst].
  assert (SE : forall k, exp_ok k -> expo (exp_text k) = (k, bnil)).
  { intros k K. pose proof (expo_longest k bnil K) as L. rewrite bapp_nil_r in L. cbn [blen] in L.
    destruct (expo_sound (exp_text k)) as (A & B). assert (Z : snd (expo (exp_text k)) = bnil) by (apply blen_0; lia).
    destruct (expo (exp_text k)) as [k' r]. cbn [fst snd] in *. subst r. rewrite bapp_nil_r in A. f_equal.
    destruct k as [[n d]|], k' as [[n' d']|]; cbn [exp_text] in A; try discriminate; [|reflexivity].
    destruct n, n'; cbn [bapp] in A; injection A as A; subst; try reflexivity.
    - destruct B as (_ & B). discriminate B.
    - destruct K as (_ & K). discriminate K. }
  assert (SS : starts is_digit (exp_text e) = false) by (destruct e as [[n d]|]; reflexivity).
  assert (V : fst (span is_digit (ip +++ frac_text f +++ exp_text e)) = ip /\ point (snd (span is_digit (ip +++ frac_text f +++ exp_text e))) = (f, exp_text e)).
  { assert (S : starts is_digit (frac_text f +++ exp_text e) = false) by (destruct f as [d|]; [reflexivity|exact SS]).
    destruct (stop_after ip _ I S) as (-> & ->). split; [reflexivity|]. destruct f as [d|]; cbn [frac_text bapp point].
    - rewrite byte_eqb_refl. destruct (stop_after d (exp_text e) F SS) as (-> & ->). reflexivity.
    - destruct e as [[n d]|]; reflexivity. }
  destruct V as (-> & ->). cbn [fst snd]. rewrite (SE e E). cbn [fst]. unfold written. apply lit_value_number; [exact I| |].
  - destruct f; [exact F|reflexivity].
  - destruct e as [[n d]|]; [apply E|reflexivity].
Qed.

(** ** One step *)
Definition sym (b : byte) : bool := match b with "+" | "-" | "*" | "/" | "(" | ")" | "," | "<" | "=" => true | _ => false end%byte.
Lemma number_digit b x q : number (bcons b x) q -> is_digit b = true.
Proof. intros H. apply (number_starts _ _ bnil) in H. exact H. Qed.
Ltac members H := cbn [symbols In] in H; repeat (destruct H as [H|H]; [|]); [injection H as ?; subst..|destruct H].
Lemma symbol_first x t : In (x, t) symbols -> exists b r, x = bcons b r /\ sym b = true.
Proof. intros H. cbn [symbols In] in H. repeat (destruct H as [H|H]; [injection H as <- <-; eexists _, _; split; reflexivity|]). destruct H. Qed.
Lemma spelt_first x t : spelt x t -> exists b r, x = bcons b r /\
  ((is_digit b = true /\ exists q, t = TNum q /\ number x q) \/ (is_alpha b = true /\ t = TId x /\ all_b id_cont r = true) \/ (sym b = true /\ In (x, t) symbols)).
Proof.
  intros [y u H|b y A C|y q H].
  - destruct (symbol_first y u H) as (b & r & -> & S). exists b, r. split; [reflexivity|]. right. right. split; assumption.
  - exists b, y. split; [reflexivity|]. right. left. repeat split; assumption.
  - destruct y as [|b r]; [apply (number_starts _ _ bnil) in H; discriminate|]. exists b, r. split; [reflexivity|]. left.
    split; [exact (number_digit b r q H)|]. exists q. split; [reflexivity|exact H].
Qed.
Lemma kinds b : (is_space b = true -> is_digit b = false /\ is_alpha b = false /\ sym b = false) /\ (is_digit b = true -> is_alpha b = false /\ sym b = false) /\
  (is_alpha b = true -> sym b = false /\ id_cont b = true).
Proof. destruct b; cbn; repeat split; intros; try discriminate; reflexivity. Qed.
Definition one_step (b : byte) (s : bstr) (r : step_res) : Prop :=
  match r with
  | Skip r => is_space b = true /\ r = s
  | Token t r => is_space b = false /\ exists x, bcons b s = x +++ r /\ spelt x t /\ longest x r
  | Stuck => is_space b = false /\ forall x y t, bcons b s = x +++ y -> ~ spelt x t
  end.
Lemma step_digit b s : is_digit b = true -> one_step b s (let '(q, r) := lex_num (bcons b s) in Token (TNum q) r).
Proof.
  intros D. destruct (lex_num_sound (bcons b s) D) as (x & E & N). destruct (lex_num (bcons b s)) as [q r] eqn:L. cbn [fst snd] in *.
  destruct (kinds b) as (K1 & K2 & K3). split.
  { destruct (is_space b) eqn:S; [destruct (K1 eq_refl) as (K & _); congruence|reflexivity]. }
  exists x. split; [exact E|]. split; [constructor; exact N|]. intros y z t -> H.
  destruct (spelt_first _ _ H) as (c & w & W & C). assert (c = b).
  { rewrite <- bapp_assoc in E. rewrite W in E. cbn [bapp] in E. congruence. }
  subst c. destruct C as [(_ & q' & _ & M)|[(A & _)|(S & _)]]; [|destruct (K2 D); congruence|destruct (K2 D); congruence].
  pose proof (number_longest _ _ z M) as G. rewrite bapp_assoc, <- E, L in G. cbn [snd] in G. rewrite blen_app in G. apply blen_0. lia.
Qed.
Lemma step_word b s : is_alpha b = true -> one_step b s (let '(x, r) := span id_cont (bcons b s) in Token (TId x) r).
Proof.
  intros A. destruct (kinds b) as (K1 & K2 & K3). destruct (K3 A) as (S & C). cbn [span]. rewrite C.
  pose proof (span_app id_cont s) as E. pose proof (span_all id_cont s) as L. destruct (span id_cont s) as [x r] eqn:Q. cbn [fst snd] in *. split.
  { destruct (is_space b) eqn:P; [destruct (K1 eq_refl) as (_ & K & _); congruence|reflexivity]. }
  exists (bcons b x). split; [cbn [bapp]; rewrite E; reflexivity|]. split; [constructor; assumption|].
  intros y z t -> H. destruct (spelt_first _ _ H) as (c & w & W & D). cbn [bapp] in W. injection W as <- <-.
  destruct D as [(D & _)|[(_ & _ & D)|(D & _)]]; [destruct (K2 D); congruence| |congruence].
  pose proof (span_prefix id_cont (x +++ y) z D) as G. rewrite bapp_assoc, E, Q in G. cbn [snd] in G. rewrite blen_app in G. apply blen_0. lia.
Qed.
Lemma symbol_longest b x s : sym b = true -> (forall y z t, s = y +++ z -> In (bcons b x +++ y, t) symbols -> y = bnil) -> longest (bcons b x) s.
Proof.
  intros S H y z t -> K. destruct (spelt_first _ _ K) as (c & w & W & D). cbn [bapp] in W. injection W as <- <-. destruct (kinds b) as (_ & K2 & K3).
  destruct D as [(D & _)|[(D & _)|(_ & D)]]; [destruct (K2 D); congruence|destruct (K3 D); congruence|]. exact (H y z t eq_refl D).
Qed.
Lemma not_spelt b s : is_digit b = false -> is_alpha b = false -> sym b = false -> forall x y t, bcons b s = x +++ y -> ~ spelt x t.
Proof.
  intros D A S x y t E H. destruct (spelt_first _ _ H) as (c & w & -> & K). cbn [bapp] in E. injection E as <- _.
  destruct K as [(K & _)|[(K & _)|(K & _)]]; congruence.
Qed.
Ltac symbol x := split; [reflexivity|]; exists x; split; [reflexivity|]; split; [constructor; cbn; tauto|]; apply symbol_longest; [reflexivity|];
  let H := fresh in intros y z t E H; cbn [symbols In bapp] in H;
  repeat (destruct H as [H|H]; [first [discriminate H|injection H as <- _; first [reflexivity|discriminate E|cbn [bapp] in E; injection E as -> _; discriminate]]|]); destruct H.
Lemma step_ok b s : one_step b s (step b s).
Proof.
  unfold step. destruct (is_space b) eqn:P; [split; [exact P|reflexivity]|]. destruct (is_digit b) eqn:D; [apply step_digit, D|].
  destruct (is_alpha b) eqn:A; [apply step_word, A|].
  destruct (sym b) eqn:S.
  - destruct b; try discriminate S; clear P D A S.
    + symbol "("%b.
    + symbol ")"%b.
    + destruct s as [|c s]; [symbol "*"%b|]. destruct (Byte.eqb c "*") eqn:C; [apply byte_eqb_eq in C; subst c; symbol "**"%b|].
      replace (match c with "*" => Token TPow s | _ => Token TStar (bcons c s) end)%byte with (Token TStar (bcons c s)) by (destruct c; try reflexivity; discriminate C).
      symbol "*"%b.
    + symbol "+"%b.
    + symbol ","%b.
    + symbol "-"%b.
    + symbol "/"%b.
    + destruct s as [|c s]; [symbol "<"%b|]. destruct (Byte.eqb c "=") eqn:C; [apply byte_eqb_eq in C; subst c; symbol "<="%b|].
      replace (match c with "=" => Token TLe s | _ => Token TLt (bcons c s) end)%byte with (Token TLt (bcons c s)) by (destruct c; try reflexivity; discriminate C).
      symbol "<"%b.
    + destruct s as [|c s]; [symbol "="%b|]. destruct (Byte.eqb c "=") eqn:C; [apply byte_eqb_eq in C; subst c; symbol "=="%b|].
      replace (match c with "=" => Token TEqEq s | _ => Token TAssign (bcons c s) end)%byte with (Token TAssign (bcons c s)) by (destruct c; try reflexivity; discriminate C).
      symbol "="%b.
  - pose proof (not_spelt b s D A S) as N. destruct b; try discriminate S; exact (conj P N).
Qed.

(** ** The whole text *)
Lemma spelt_value x t u : spelt x t -> spelt x u -> t = u.
Proof.
  intros H K. destruct (spelt_first _ _ H) as (b & r & E & A). destruct (spelt_first _ _ K) as (b' & r' & E' & A'). rewrite E in E'. injection E' as <- <-.
  destruct (kinds b) as (_ & K2 & K3).
  destruct A as [(A & q & -> & N)|[(A & -> & _)|(A & N)]], A' as [(A' & q' & -> & N')|[(A' & -> & _)|(A' & N')]];
    try (destruct (K2 A); congruence); try (destruct (K2 A'); congruence); try (destruct (K3 A); congruence); try (destruct (K3 A'); congruence).
  - apply number_value in N, N'. congruence.
  - clear - N N'. cbn [symbols In] in N, N'.
    repeat (destruct N as [N|N]; [injection N as <- <-; repeat (destruct N' as [N'|N']; [first [discriminate N'|injection N' as <-; reflexivity]|]); destruct N'|]). destruct N.
Qed.
Lemma prefixes x y a b : x +++ a = y +++ b -> (exists w, y = x +++ w /\ a = w +++ b) \/ (exists w, x = y +++ w /\ b = w +++ a).
Proof.
  revert y. induction x as [|c x IH]; intros [|d y] H; cbn [bapp] in H.
  - left. exists bnil. split; [reflexivity|exact H].
  - left. exists (bcons d y). split; [reflexivity|exact H].
  - right. exists (bcons c x). split; [reflexivity|symmetry; exact H].
  - injection H as -> H. destruct (IH y H) as [(w & -> & ->)|(w & -> & ->)]; [left|right]; exists w; split; reflexivity.
Qed.
Lemma tokens_sound n : forall s ts, (blen s < n)%nat -> tokens s = Some ts -> tokenised s ts.
Proof.
  induction n as [|n IH]; intros s ts L H; [lia|]. destruct s as [|b s]; [injection H as <-; constructor|].
  rewrite tokens_step in H. pose proof (step_ok b s) as O. pose proof (step_len b s) as B. cbn [blen] in L. destruct (step b s) as [r|t r|]; cbn [rest one_step] in *; [| |discriminate].
  - destruct O as (O & ->). constructor; [exact O|]. apply IH; [lia|exact H].
  - destruct (tokens r) as [l|] eqn:E; [|discriminate]. injection H as <-. destruct O as (_ & x & -> & S & M). constructor; [exact S|exact M|]. apply IH; [lia|exact E].
Qed.
Lemma tokens_complete s ts : tokenised s ts -> tokens s = Some ts.
Proof.
  induction 1 as [|b s ts P _ IH|x t s ts S M _ IH]; [reflexivity| |].
  - rewrite tokens_step. pose proof (step_ok b s) as O. destruct (step b s) as [r|t r|]; cbn [one_step] in O; [destruct O as (_ & ->); exact IH|destruct O; congruence|destruct O; congruence].
  - destruct (spelt_first _ _ S) as (b & r & E & K). assert (Q : bcons b (r +++ s) = x +++ s) by (rewrite E; reflexivity). rewrite <- Q, tokens_step.
    pose proof (step_ok b (r +++ s)) as O. destruct (step b (r +++ s)) as [r'|t' r'|]; cbn [one_step] in O.
    + exfalso. destruct O as (O & _). destruct (kinds b) as (K1 & _). destruct (K1 O) as (A & B & C). destruct K as [(K & _)|[(K & _)|(K & _)]]; congruence.
    + destruct O as (_ & x' & E' & S' & M'). rewrite Q in E'. destruct (prefixes _ _ _ _ E') as [(w & -> & ->)|(w & -> & ->)].
      * assert (W : w = bnil) by exact (M w r' t' eq_refl S'). subst w. rewrite bapp_nil_r in S'. cbn [bapp] in IH. rewrite IH. rewrite (spelt_value _ _ _ S' S). reflexivity.
      * assert (W : w = bnil) by exact (M' w s t eq_refl S). subst w. rewrite bapp_nil_r in S. cbn [bapp]. rewrite IH. rewrite (spelt_value _ _ _ S' S). reflexivity.
    + exfalso. destruct O as (_ & O). exact (O x s t Q S).
Qed.
Lemma tokens_iff s ts : tokens s = Some ts <-> tokenised s ts.
Proof. split; [apply (tokens_sound (S (blen s))); lia|apply tokens_complete]. Qed.
Lemma tokenised_unique s ts us : tokenised s ts -> tokenised s us -> ts = us.
Proof. intros A B. apply tokens_iff in A, B. congruence. Qed.
Lemma id_cont_spec b : id_cont b = (is_alpha b || is_digit b || Byte.eqb b "." || Byte.eqb b "[" || Byte.eqb b "]")%bool.
Proof. destruct b; reflexivity. Qed.
