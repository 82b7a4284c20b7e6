(** Names read by a program before it assigns them, and special functions it calls. *)
From Coq Require Import Reals List Bool QArith.
From Verif Require Import Bytes Syntax Semantics.
Import ListNotations.
Open Scope R_scope.

Fixpoint vars (e : expr) : list bstr :=
  match e with
  | ENum _ | EPi => []
  | EVar x => [x]
  | ENeg a | EFn1 _ a => vars a
  | EAdd a b | ESub a b | EMul a b | EDiv a b | EPow a b | ECmp _ a b | EOr a b | EAnd a b | EFn2 _ a b => vars a ++ vars b
  | ECond a b c | EFn3 _ a b c => vars a ++ vars b ++ vars c
  end.
Definition mem (x : bstr) (l : list bstr) : bool := existsb (beqb x) l.
Fixpoint free_from (bound : list bstr) (p : program) : list bstr :=
  match p with
  | [] => if mem "res" bound then [] else ["res"%b]
  | (x, e) :: p => filter (fun y => negb (mem y bound)) (vars e) ++ free_from (x :: bound) p
  end.
(** The free names of a program whose value is [res]. *)
Definition free (p : program) : list bstr := free_from [] p.

Definition fn_name (f : fn1) : list bstr := match f with FOp n => [n] | _ => [] end.
Fixpoint ops (e : expr) : list bstr :=
  match e with
  | ENum _ | EPi | EVar _ => []
  | ENeg a => ops a
  | EFn1 f a => fn_name f ++ ops a
  | EAdd a b | ESub a b | EMul a b | EDiv a b | EPow a b | ECmp _ a b | EOr a b | EAnd a b => ops a ++ ops b
  | EFn2 f a b => f :: ops a ++ ops b
  | ECond a b c => ops a ++ ops b ++ ops c
  | EFn3 f a b c => f :: ops a ++ ops b ++ ops c
  end.
Definition prog_ops (p : program) : list bstr := flat_map (fun s => ops (snd s)) p.

Lemma mem_In x l : mem x l = true <-> In x l.
Proof.
  unfold mem. rewrite existsb_exists. split.
  - intros (y & Hy & E). apply beqb_eq in E. subst y. exact Hy.
  - intros H. exists x. split; [exact H|apply beqb_eq; reflexivity].
Qed.

Lemma eval_vars I e1 e2 e : (forall x, In x (vars e) -> e1 x = e2 x) -> eval I e1 e = eval I e2 e.
Proof.
  induction e; cbn [vars eval]; intros H;
    repeat match goal with IH : (forall x, In x (vars ?a) -> _) -> _ |- _ =>
      rewrite IH by (intros; apply H; rewrite ?in_app_iff; tauto); clear IH end; try reflexivity.
  apply H. left. reflexivity.
Qed.

Lemma exec_free I p : forall bound e1 e2,
  (forall x, In x bound -> e1 x = e2 x) ->
  (forall x, In x (free_from bound p) -> e1 x = e2 x) ->
  exec I e1 p "res"%b = exec I e2 p "res"%b.
Proof.
  induction p as [|[x e] p IH]; intros bound e1 e2 Hb Hf; cbn [exec free_from] in *.
  - destruct (mem "res" bound) eqn:E; [apply Hb, mem_In, E|apply Hf; left; reflexivity].
  - assert (Hv : eval I e1 e = eval I e2 e).
    { apply eval_vars. intros y Hy. destruct (mem y bound) eqn:E; [apply Hb, mem_In, E|].
      apply Hf. apply in_or_app. left. apply filter_In. split; [exact Hy|]. rewrite E. reflexivity. }
    rewrite Hv. apply (IH (x :: bound)).
    + intros y [<-|Hy]; unfold upd; [rewrite (proj2 (beqb_eq x x) eq_refl); reflexivity|].
      destruct (beqb y x); [reflexivity|apply Hb, Hy].
    + intros y Hy. unfold upd. destruct (beqb y x); [reflexivity|]. apply Hf. apply in_or_app. right. exact Hy.
Qed.

(** The result of a program depends on its free names only. *)
Theorem result_free I p e1 e2 : (forall x, In x (free p) -> e1 x = e2 x) -> result I e1 p = result I e2 p.
Proof. intros H. unfold result. rewrite (exec_free I p [] e1 e2); [reflexivity|intros x []|exact H]. Qed.
