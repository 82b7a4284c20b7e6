(** C08, C09, C10: the text rewriting of the shipped programs, of numeric literals and of cube
    roots. *)
From Coq Require Import Reals List Bool Strings.Byte ZArith QArith Lia.
From Verif Require Import Bytes Syntax Parser PostProcess PostFast Semantics Literals LiteralsThm ParserThm CubeRoots CubeText CubeText2 Src Translate TranslateThm.
Import ListNotations.

(** ** C08 *)
(** Every shipped program, in both spin modes, for every input, every record and every meaning of
    the special functions: a number denoted by Maple's text is the value of the generated
    function. *)
Theorem C08_value_kept f : In f all_sources -> forall I A,
  (forall a v, raw_result I (src_pol f) (raw_pol_env A a) = Some v -> pol f I A a = Some v) /\
  (forall a v, raw_result I (src_unpol f) (raw_unpol_env A a) = Some v -> unpol f I A a = Some v).
Proof. intros F I A. exact (conj (fun a => proj2 (proj1 (formulas_translated f F I A) a)) (fun a => proj2 (proj2 (formulas_translated f F I A) a))). Qed.
Print Assumptions C08_value_kept.
(** Exactly the same, undefined values included, once [x ** (1/3)] in the text is read as the
    real cube root for a negative [x] too. *)
Theorem C08_nothing_else f : In f all_sources -> forall I A,
  (forall a, pol f I A a = raw_real_result I (src_pol f) (raw_pol_env A a)) /\
  (forall a, unpol f I A a = raw_real_result I (src_unpol f) (raw_unpol_env A a)).
Proof.
  intros F I A.
  exact (conj (fun a => eq_sym (proj1 (proj1 (formulas_translated f F I A) a))) (fun a => eq_sym (proj1 (proj2 (formulas_translated f F I A) a)))).
Qed.
Print Assumptions C08_nothing_else.
Example C08_sample I : raw_result I (src_unpol f_lda_c_lp96)
  (raw_unpol_env (fun _ => Some 1%R) {| u_r := 1; u_s := None; u_l := None; u_tau := None |}) = Some 3%R.
Proof. exact (lp96_raw I). Qed.
Example C08_names : map path ["params_a_lambda"; "params_a_CC_0_[2]"; "p_a_zeta_threshold"; "t12"]%b = ["params.lambda_"; "params.CC[0][2]"; "p.zeta_threshold"; "t12"]%b.
Proof. reflexivity. Qed.

(** ** C09 *)
(** A literal digits.digits e exponent reads as one number, digits times a power of ten, before
    and after rules 2 and 3. *)
Theorem C09_literal l : maple_literal l ->
  exists q, tokens (lit_text l) = Some [TNum q] /\ tokens (rule_e0 (rule_zeros (lit_text l))) = Some [TNum q] /\ (q == lit_number l)%Q.
Proof. exact (literal_kept l). Qed.
Print Assumptions C09_literal.
Definition sample_literal : literal := Literal "0" "62000" true "10".
Example sample_literal_ok : maple_literal sample_literal /\
  lit_text sample_literal = "0.62000e-10"%b /\ rule_e0 (rule_zeros (lit_text sample_literal)) = "0.62e-10"%b /\
  (lit_number sample_literal == 31 # 500000000000)%Q.
Proof. unfold maple_literal. cbn [li_int li_frac li_neg li_exp sample_literal]. refine (conj (conj _ (conj _ (conj _ (conj _ (conj _ _))))) (conj _ (conj _ _))); try discriminate; try (vm_compute; reflexivity). left; reflexivity. Qed.
(** A line of text and literals reads as the same tokens, so as the same assignment. *)
Theorem C09_line v l last : maple_line l last ->
  rule_e0 (rule_zeros (line l last)) = short_line l last /\
  tokens (short_line l last) = tokens (line l last) /\
  parse_line v (rule_e0 (rule_zeros (line l last))) = parse_line v (line l last).
Proof. intros H. exact (conj (line_rewritten l last (proj1 H)) (conj (line_tokens l last H) (line_parsed v l last H))). Qed.
Print Assumptions C09_line.
Definition sample_pieces : list (bstr * literal) := [("t7 = x * "%b, Literal "0" "1500" false "1"); (" + (-"%b, Literal "0" "250" false "0")].
Example sample_pieces_ok : maple_line sample_pieces " * t3)"%b /\
  line sample_pieces " * t3)" = "t7 = x * 0.1500e1 + (-0.250e0 * t3)"%b /\
  rule_e0 (rule_zeros (line sample_pieces " * t3)")) = "t7 = x * 0.15e1 + (-0.25 * t3)"%b /\
  parse_line jax_voc (line sample_pieces " * t3)") <> None.
Proof.
  refine (conj (conj (conj _ _) _) (conj _ (conj _ _))); try (vm_compute; reflexivity); try (vm_compute; discriminate).
  - unfold sample_pieces. constructor; [|constructor; [|constructor]]; cbn [fst snd]; (refine (conj _ (conj _ _)); [repeat split; vm_compute; reflexivity|repeat split; vm_compute; reflexivity|]);
      unfold maple_literal; cbn [li_int li_frac li_neg li_exp]; refine (conj _ (conj _ (conj _ (conj _ (conj _ _))))); try discriminate; try reflexivity.
    + right; right; reflexivity.
    + right; left; reflexivity.
  - repeat split; vm_compute; reflexivity.
  - repeat constructor.
Qed.
(** The two conditions on literals are needed: the exponent may not start with a zero, and there
    must be a point. *)
Theorem C09_leading_zero_refuted :
  ~ forall l, plain_literal l -> tokens (rule_e0 (rule_zeros (lit_text l))) = tokens (lit_text l).
Proof. exact leading_zero_refuted. Qed.
Print Assumptions C09_leading_zero_refuted.
Theorem C09_no_point_refuted :
  ~ forall m e, m <> bnil -> e <> bnil -> all_b is_digit m = true -> all_b is_digit e = true ->
      tokens (rule_e0 (rule_zeros (m +++ "e" +++ e))) = tokens (m +++ "e" +++ e).
Proof. exact no_point_refuted. Qed.
Print Assumptions C09_no_point_refuted.

(** ** C10 *)
(** A base in parentheses, of any length and nesting: the rewritten text, and the value. *)
Theorem C10_parenthesised_text p g post :
  tdepth 0 g = Some 0%nat -> starts is_digit post = false ->
  roots (p +++ "(" +++ g +++ ")" +++ " ** (0.1e1 / 0.3e1)" +++ post) = 1%nat ->
  rule_cbrt_var (rule_cbrt_paren (p +++ "(" +++ g +++ ")" +++ " ** (0.1e1 / 0.3e1)" +++ post)) = p +++ "jnp.cbrt(" +++ g +++ ")" +++ post.
Proof. exact (rules_paren_one p g post). Qed.
Print Assumptions C10_parenthesised_text.
Theorem C10_parenthesised v p g post x e :
  v_prim v "jnp.cbrt" = Some (P1 FCbrt) -> cut p -> no_call p -> tdepth 0 g = Some 0%nat -> starts is_digit post = false -> no_power post ->
  roots (p +++ "(" +++ g +++ ")" +++ " ** (0.1e1 / 0.3e1)" +++ post) = 1%nat ->
  parse_line v (p +++ "(" +++ g +++ ")" +++ " ** (0.1e1 / 0.3e1)" +++ post) = Some (x, e) ->
  exists e', parse_line v (rule_cbrt_var (rule_cbrt_paren (p +++ "(" +++ g +++ ")" +++ " ** (0.1e1 / 0.3e1)" +++ post))) = Some (x, e') /\
    forall I rho w, eval I rho e = Some w -> eval I rho e' = Some w.
Proof. exact (cube_root_paren_value v p g post x e). Qed.
Print Assumptions C10_parenthesised.
(** A base that is one identifier or number. *)
Theorem C10_word_text p b post :
  b <> bnil -> all_b id_cont b = true ->
  roots (p +++ " " +++ b +++ " ** (0.1e1 / 0.3e1)" +++ post) = 1%nat ->
  rule_cbrt_var (rule_cbrt_paren (p +++ " " +++ b +++ " ** (0.1e1 / 0.3e1)" +++ post)) = p +++ " jnp.cbrt(" +++ b +++ ")" +++ post.
Proof. exact (rules_word_one p b post). Qed.
Print Assumptions C10_word_text.
Theorem C10_word v p b t post x e :
  v_prim v "jnp.cbrt" = Some (P1 FCbrt) -> no_call (p +++ " "%b) -> all_b id_cont b = true -> tokens b = Some [t] -> no_power post ->
  roots (p +++ " " +++ b +++ " ** (0.1e1 / 0.3e1)" +++ post) = 1%nat ->
  parse_line v (p +++ " " +++ b +++ " ** (0.1e1 / 0.3e1)" +++ post) = Some (x, e) ->
  exists e', parse_line v (rule_cbrt_var (rule_cbrt_paren (p +++ " " +++ b +++ " ** (0.1e1 / 0.3e1)" +++ post))) = Some (x, e') /\
    forall I rho w, eval I rho e = Some w -> eval I rho e' = Some w.
Proof. exact (cube_root_word_value v p b t post x e). Qed.
Print Assumptions C10_word.
(** Lines of these shapes. *)
Example sample_paren :
  let p := "t9 = 0.2e1 * "%b in let g := "(r0 + r1) / (t3 - 0.1e1)"%b in let post := " * t4"%b in
  v_prim jax_voc "jnp.cbrt" = Some (P1 FCbrt) /\ cut p /\ no_call p /\ tdepth 0 g = Some 0%nat /\ starts is_digit post = false /\ no_power post /\
  roots (p +++ "(" +++ g +++ ")" +++ " ** (0.1e1 / 0.3e1)" +++ post) = 1%nat /\
  exists e, parse_line jax_voc (p +++ "(" +++ g +++ ")" +++ " ** (0.1e1 / 0.3e1)" +++ post) = Some ("t9"%b, e).
Proof. exact sample_paren_ok. Qed.
Example sample_word :
  let p := "t9 ="%b in let b := "p_a_zeta_threshold"%b in let post := bnil in
  no_call (p +++ " "%b) /\ all_b id_cont b = true /\ tokens b = Some [TId b] /\ no_power post /\
  roots (p +++ " " +++ b +++ " ** (0.1e1 / 0.3e1)" +++ post) = 1%nat /\
  parse_line jax_voc (p +++ " " +++ b +++ " ** (0.1e1 / 0.3e1)" +++ post) = Some ("t9"%b, EPow (EVar b) (EDiv (ENum 1) (ENum 3))).
Proof. exact sample_word_ok. Qed.
(** Several roots, or a root inside the argument of a call, are outside these shapes; there the
    rewritten line can have another value. *)
Theorem C10_several_roots_refuted :
  ~ forall s x e, parse_line jax_voc s = Some (x, e) ->
      exists e', parse_line jax_voc (rule_cbrt_var (rule_cbrt_paren s)) = Some (x, e') /\ forall I rho w, eval I rho e = Some w -> eval I rho e' = Some w.
Proof. exact two_roots_refuted. Qed.
Print Assumptions C10_several_roots_refuted.
Theorem C10_call_argument_refuted :
  ~ forall s x e, roots s = 1%nat -> parse_line jax_voc s = Some (x, e) ->
      exists e', parse_line jax_voc (rule_cbrt_var (rule_cbrt_paren s)) = Some (x, e') /\ forall I rho w, eval I rho e = Some w -> eval I rho e' = Some w.
Proof. exact call_refuted. Qed.
Print Assumptions C10_call_argument_refuted.
