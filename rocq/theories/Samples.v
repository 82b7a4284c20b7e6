(** Small concrete data used by the examples beside the property theorems. *)
From Coq Require Import Reals List Bool QArith Qreals Arith Lra Lia.
From Verif Require Import Bytes Syntax Parser PostProcess Src Semantics Free Vec Deriv Impl ImplThm ImplThm2 ImplThm3 ImplThm4.
Import ListNotations.
Open Scope R_scope.

Definition no_ops : interp := {| op1 := fun _ _ => None; op2 := fun _ _ _ => None; op3 := fun _ _ _ _ => None |}.
(** A formula in Maple's output format. *)
Definition toy : source := Source "toy" ["res = r0 + 0.3e1 * r1"]%b ["res = 0.2e1 * r0"]%b.
Definition toy_impl : modules := fun n => if beqb n "toy" then Some toy else None.
Definition sample_scalars : scalars := {|
  cam_omega := 0; cam_alpha := / 4; cam_beta := 0; nlc_b := 0; nlc_C := 0;
  dens_threshold := / 100; zeta_threshold := / 1000; sigma_threshold := / 1000; tau_threshold := / 1000 |}.
Definition sample (ty : bstr) (ns : nat) (maple : bstr) (aux : option (list func_p)) (mix : option (list R)) : func_p :=
  FuncP "sample" ty ns maple sample_scalars (fun _ => None) aux mix.
Definition leaf (ty : bstr) (ns : nat) : func_p := sample ty ns "toy" None None.
(** The density x0 + 2 x1 + 5 with spin channels (x0 + 3, 2 x1 + 2), at the origin. *)
Definition origin : vec := fun _ => 0.
Definition lin_unpol (y : vec) (ix : list nat) : R := y 0%nat + 2 * y 1%nat + 5.
Definition lin_pol (y : vec) (ix : list nat) : R :=
  match ix with [0%nat] => y 0%nat + 3 | _ => 2 * y 1%nat + 2 end.
Definition grad_unpol (ix : list nat) : vec := fun i => match i with 0%nat => 1 | 1%nat => 2 | _ => 0 end.
Definition grad_pol (ix : list nat) : vec :=
  match ix with [0%nat] => fun i => match i with 0%nat => 1 | _ => 0 end | _ => fun i => match i with 1%nat => 2 | _ => 0 end end.
Definition field_unpol : field R := Field [] (lin_unpol origin) grad_unpol (fun _ _ _ => 0).
Definition field_pol : field R := Field [2%nat] (lin_pol origin) grad_pol (fun _ _ _ => 0).
(** One orbital, exp(i x0) to first order, in each spin channel. *)
Definition lin_mo (y : vec) (ix : list nat) : complex := (1, y 0%nat).
Definition mo_unpol : field complex :=
  Field [1%nat] (lin_mo origin) (fun _ i => match i with 0%nat => (0, 1) | _ => (0, 0) end) (fun _ _ _ => (0, 0)).
Definition mo_pol : field complex :=
  Field [2%nat; 1%nat] (lin_mo origin) (fun _ i => match i with 0%nat => (0, 1) | _ => (0, 0) end) (fun _ _ _ => (0, 0)).

Lemma has_grad_linear d g c x : has_grad d (fun y => dot d g y + c) x g.
Proof.
  apply (small_ext d) with (e := fun _ => 0); [|apply small_zero].
  intros h. rewrite dot_add_r. lra.
Qed.
Lemma has_grad_ext_fun d f f' x g : (forall y, f y = f' y) -> has_grad d f x g -> has_grad d f' x g.
Proof. intros E. apply (small_ext d). intros h. rewrite !E. reflexivity. Qed.
Lemma has_hess_linear d g c f x : (forall y, f y = dot d g y + c) -> has_hess d f x (fun _ _ => 0).
Proof.
  intros E. exists (fun _ => g). split.
  - exists 1. split; [lra|]. intros h _. apply (has_grad_ext_fun d (fun y => dot d g y + c)); [intros y; symmetry; apply E|apply has_grad_linear].
  - intros i _. apply has_grad_const.
Qed.
Lemma lin_unpol_dot y ix : lin_unpol y ix = dot 3 (grad_unpol ix) y + 5.
Proof. unfold lin_unpol, dot, grad_unpol. simpl. lra. Qed.
Lemma lin_pol_dot y ix : lin_pol y ix = dot 3 (grad_pol ix) y + match ix with [0%nat] => 3 | _ => 2 end.
Proof. destruct ix as [|[|n] [|m l]]; unfold lin_pol, dot, grad_pol; simpl; lra. Qed.
Lemma lin_mo_grad x ix : has_grad 3 (fun y => fst (lin_mo y ix)) x (fun _ => 0) /\
  has_grad 3 (fun y => snd (lin_mo y ix)) x (fun i => match i with 0%nat => 1 | _ => 0 end).
Proof.
  split; [exact (has_grad_const 3 1 x)|].
  apply (has_grad_ext_fun 3 (fun y => dot 3 (fun i => match i with 0%nat => 1 | _ => 0 end) y + 0)); [|apply has_grad_linear].
  intros y. unfold dot, lin_mo. simpl. lra.
Qed.
Lemma field_unpol_at : at_point 3 [] lin_unpol origin field_unpol.
Proof.
  split; [reflexivity|]. split; [reflexivity|]. split; intros ix.
  - apply (has_grad_ext_fun 3 (fun y => dot 3 (grad_unpol ix) y + 5)); [intros y; symmetry; apply lin_unpol_dot|apply has_grad_linear].
  - apply (has_hess_linear 3 (grad_unpol ix) 5). intros y. apply lin_unpol_dot.
Qed.
Lemma field_pol_at : at_point 3 [2%nat] lin_pol origin field_pol.
Proof.
  split; [reflexivity|]. split; [reflexivity|]. split; intros ix.
  - apply (has_grad_ext_fun 3 (fun y => dot 3 (grad_pol ix) y + match ix with [0%nat] => 3 | _ => 2 end)); [intros y; symmetry; apply lin_pol_dot|apply has_grad_linear].
  - apply (has_hess_linear 3 (grad_pol ix) (match ix with [0%nat] => 3 | _ => 2 end)). intros y. apply lin_pol_dot.
Qed.
Lemma mo_at sh : at_point_c 3 sh lin_mo origin (Field sh (lin_mo origin) (fun _ i => match i with 0%nat => (0, 1) | _ => (0, 0) end) (fun _ _ _ => (0, 0))).
Proof.
  split; [reflexivity|]. split; [reflexivity|]. destruct (lin_mo_grad origin []) as [G1 G2]. split; intros ix.
  - apply (has_grad_ext 3 (fun y => fst (lin_mo y ix)) origin (fun _ => 0)); [|exact G1]. intros [|i] _; reflexivity.
  - apply (has_grad_ext 3 (fun y => snd (lin_mo y ix)) origin (fun i => match i with 0%nat => 1 | _ => 0 end)); [|exact G2]. intros [|i] _; reflexivity.
Qed.

(** The toy formula's value. *)
Lemma toy_generated : generated (src_unpol toy) = Some [("res"%b, EMul (ENum (2 # 1)) (EVar "r0"))] /\
  generated (src_pol toy) = Some [("res"%b, EAdd (EVar "r0") (EMul (ENum (3 # 1)) (EVar "r1")))].
Proof. split; vm_compute; reflexivity. Qed.
Lemma toy_unpol p a r : fp_nspin p = 1%nat -> fa_dens a = SUnpol r -> call_code no_ops toy p a = Ok (Some (2 * r)).
Proof.
  intros Hn Hd. unfold call_code. rewrite Hn, Hd. cbn [Nat.eqb]. unfold run_code. rewrite (proj1 toy_generated).
  cbn. unfold to_unpol. rewrite Hd. cbn. do 2 f_equal. unfold Q2R. simpl. lra.
Qed.
Lemma toy_pol p a r0 r1 : fp_nspin p = 2%nat -> fa_dens a = SPol r0 r1 -> call_code no_ops toy p a = Ok (Some (r0 + 3 * r1)).
Proof.
  intros Hn Hd. unfold call_code. rewrite Hn, Hd. cbn [Nat.eqb]. unfold run_code. rewrite (proj2 toy_generated).
  cbn. unfold to_pol. rewrite Hd. cbn. do 2 f_equal. unfold Q2R. simpl. lra.
Qed.
