(** C44: the functions and operators in the text of a formula are those of analysis. *)
From Coq Require Import Reals List Bool Arith Lra.
From Verif Require Import Bytes Syntax Parser PostProcess Semantics Meaning.
Import ListNotations.
Open Scope R_scope.

(** As Maple writes them, as the generated module has them, and through the translation. *)
Theorem C44_functions : Forall (fun p => line1 raw_voc (fst p) (snd p)) maple_functions /\
  Forall (fun p => line1 jax_voc (fst p) (snd p)) jax_functions /\ Forall (fun p => translated1 (fst p) (snd p)) maple_functions.
Proof. exact (conj maple_functions_ok (conj jax_functions_ok translated_functions_ok)). Qed.
Print Assumptions C44_functions.
Theorem C44_operators v : v = raw_voc \/ v = jax_voc ->
  Forall (fun p => line2 v (fst p) (snd p)) arithmetic /\ Forall (fun p => line_test v (fst p) (snd p)) tests /\ selects v /\ signs v.
Proof. exact (fun V => conj (arithmetic_ok v V) (conj (tests_ok v V) (conj (selects_ok v V) (signs_ok v V)))). Qed.
Print Assumptions C44_operators.
(** Powers with a whole exponent and roots. *)
Theorem C44_powers x n z : (is_power x (INR n) z <-> z = x ^ n) /\ (0 <= x -> is_power x (/ INR (S n)) z <-> 0 <= z /\ z ^ S n = x).
Proof. exact (conj (whole_power x n z) (root_power x n z)). Qed.
Print Assumptions C44_powers.

(** The cube root of a negative number is defined in the generated text, and is the negative one. *)
Example C44_negative_root : is_cbrt (- 8) (- 2) /\ forall y, is_cbrt (- 8) y -> y = - 2.
Proof. split; [unfold is_cbrt; lra|]. intros y H. apply cube_injective. unfold is_cbrt in H. lra. Qed.
Example C44_no_value : (forall y, ~ is_sqrt (- 1) y) /\ (forall y, ~ is_log 0 y) /\ (forall y, ~ is_atanh 1 y) /\ is_step 0 1 /\ is_power 0 0 1.
Proof.
  repeat split; unfold is_sqrt, is_log, is_atanh, is_tanh, is_step, is_power.
  - intros y [_ H]. pose proof (Rle_0_sqr y). unfold Rsqr in *. lra.
  - intros y H. pose proof (exp_pos y). lra.
  - intros y H. pose proof (exp_pos y). pose proof (exp_pos (- y)). lra.
  - left. lra.
  - right. right. left. lra.
Qed.
