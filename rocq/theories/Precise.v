(** Settings of the interval arithmetic with close bounds, for values that differ little. *)
From Coq Require Import Reals ZArith NArith QArith.
From Verif Require Import Interval IntervalThm IntervalThm2 Absint AbsintThm AbsintFine.

Definition wide_pi : setting := Setting 120 8 top true.
Definition pi_box : itv := Eval vm_compute in @pi_bounds wide_pi 17.
Lemma pi_box_ok : inside pi_box PI.
Proof. replace pi_box with (@pi_bounds wide_pi 17) by (vm_compute; reflexivity). apply pi_bounds_ok. Qed.
(** Binary digits kept, squarings or square roots taken for an exponential or a logarithm. *)
Definition close (digits : Z) (times : nat) : setting := Setting digits times pi_box true.
Definition close_pi digits times : @pi_known (close digits times) := pi_box_ok.
