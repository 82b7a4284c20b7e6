(** The shipped programs as lines of the grammar. *)
From Coq Require Import List.
From Verif Require Import Bytes Syntax Parser PostProcess Src Ast Tokens Grammar.
Import ListNotations.

Lemma shipped_lines f : In f all_sources -> exists p u,
  Forall2 (line jax_voc) (post_process_file (src_pol f)) p /\ Forall2 (line jax_voc) (post_process_file (src_unpol f)) u.
Proof.
  rewrite <- all_compiled_sources. intros H. apply in_map_iff in H. destruct H as (c & <- & _).
  exists (c_pol c), (c_unpol c). split; apply parse_lines; [exact (c_pol_ok c)|exact (c_unpol_ok c)].
Qed.
