(** A kinetic functional with negative values: run of the check of Kinetic.v. *)
From Coq Require Import List QArith NArith Bool.
From Verif Require Import Bytes Src Ast Semantics Families Interval Absint Defined Refute RunRefute Precise Kinetic.
Import ListNotations.

(** A negative Laplacian, as at a maximum of the density. *)
Definition peak : qlist := [
  ("r0", 1 # 1); ("r1", 1 # 2); ("s0", 1 # 100); ("s1", 0 # 1); ("s2", 1 # 100); ("l0", - 1000 # 1); ("l1", - 1000 # 1);
  ("tau0", 9 # 1); ("tau1", 8 # 1)]%b%Q.
Lemma gea2_run : @refute_kinetic (close 64 8) (half_params a_mgga_k_gea2) peak a_mgga_k_gea2 = true.
Proof. vm_cast_no_check (eq_refl true). Qed.
Lemma gea2_negative : negative_somewhere f_mgga_k_gea2.
Proof. exact (@refute_kinetic_sound _ (close_pi 64 8) _ _ _ gea2_run). Qed.
