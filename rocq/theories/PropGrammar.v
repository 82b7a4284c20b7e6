(** C45: the text of a formula is read with the grammar of Python. *)
From Coq Require Import Strings.Byte List Arith NArith QArith.
From Verif Require Import Bytes Syntax Parser PostProcess Src Ast LiteralsThm Tokens Grammar GrammarLib.
Import ListNotations.

(** A text is read as the statements whose expressions are the trees of its lines, and as nothing else. *)
Theorem C45_lines v l p : parse v l = Some p <-> Forall2 (line v) l p.
Proof. exact (parse_lines v l p). Qed.
Print Assumptions C45_lines.
(** No phrase has two trees. *)
Theorem C45_one_tree v ts a b : tree v Comparison ts a -> tree v Comparison ts b -> a = b.
Proof. exact (tree_unique v ts a b). Qed.
Print Assumptions C45_one_tree.

(** The lexer finds the longest tokens, and there is one way to do so. *)
Theorem C45_tokens s ts : tokens s = Some ts <-> tokenised s ts.
Proof. exact (tokens_iff s ts). Qed.
Print Assumptions C45_tokens.
(** The characters of numbers, of the beginning and the inside of words, and the blanks. *)
Theorem C45_characters b : is_digit b = between 48 57 b /\ is_alpha b = (between 65 90 b || between 97 122 b || Byte.eqb b "_")%bool /\
  id_cont b = (is_alpha b || is_digit b || Byte.eqb b "." || Byte.eqb b "[" || Byte.eqb b "]")%bool /\ is_space b = (Byte.eqb b " " || between 9 13 b)%bool.
Proof. exact (conj (is_digit_spec b) (conj (is_alpha_spec b) (conj (id_cont_spec b) (is_space_spec b)))). Qed.
Print Assumptions C45_characters.
Theorem C45_one_tokenisation s ts us : tokenised s ts -> tokenised s us -> ts = us.
Proof. exact (tokenised_unique s ts us). Qed.
Print Assumptions C45_one_tokenisation.

(** Every shipped program is such a text after the translation, in both spin modes. *)
Theorem C45_shipped f : In f all_sources -> exists p u,
  Forall2 (line jax_voc) (post_process_file (src_pol f)) p /\ Forall2 (line jax_voc) (post_process_file (src_unpol f)) u.
Proof. exact (shipped_lines f). Qed.
Print Assumptions C45_shipped.

(** Subtraction and division group to the left, powers to the right and before the sign. *)
Example C45_left : line jax_voc "y = a - b - c / d * f" ("y", ESub (ESub (EVar "a") (EVar "b")) (EMul (EDiv (EVar "c") (EVar "d")) (EVar "f")))%b.
Proof. apply parse_line_iff. vm_compute. reflexivity. Qed.
Example C45_right : line jax_voc "y = -a ** -b ** c" ("y", ENeg (EPow (EVar "a") (ENeg (EPow (EVar "b") (EVar "c")))))%b.
Proof. apply parse_line_iff. vm_compute. reflexivity. Qed.
Example C45_calls : line jax_voc "y = lax_cond(a <= (b), jnp.cbrt(c), jnp.pi)" ("y", ECond (ECmp CLe (EVar "a") (EVar "b")) (EFn1 FCbrt (EVar "c")) EPi)%b.
Proof. apply parse_line_iff. vm_compute. reflexivity. Qed.
Example C45_not_a_phrase e : ~ tree jax_voc Comparison [TId "a"; TStar; TSlash; TId "b"]%b e.
Proof.
  intros H. apply parser_complete in H. destruct H as [_ H]. specialize (H 30%nat [] (le_n_S _ _ (Nat.le_add_r 23 7)) I). vm_compute in H. discriminate.
Qed.
Example C45_longest : tokenised "x2 **2e-1<=  =1.e" [TId "x2"; TPow; TNum (1 # 5); TLe; TAssign; TNum 1; TId "e"]%b.
Proof. apply tokens_iff. vm_compute. reflexivity. Qed.
Example C45_no_token ts : ~ tokenised "a % b" ts.
Proof. intros H. apply tokens_iff in H. vm_compute in H. discriminate. Qed.
Example C45_shipped_lines : In f_lda_x all_sources /\ (2 <= length (src_pol f_lda_x))%nat.
Proof. split; [rewrite <- all_compiled_sources; apply (in_map c_src all_compiled a_lda_x); cbn; tauto|vm_compute; repeat constructor]. Qed.
