(** Screening (C07) for the callable returned to the user, and the weighted sum of a mixture
    (C11) for it. *)
From Coq Require Import Reals List Bool QArith Arith Lra Lia.
From Verif Require Import Bytes Syntax Parser PostProcess Src Semantics Free Vec Impl ImplThm ImplThm2.
Import ListNotations.
Open Scope R_scope.

Lemma args_without_mo p d rho mo deo : is_type p "mgga" = false ->
  rho_to_arguments p d rho mo deo = rho_to_arguments p d rho None deo.
Proof.
  intros Hm. unfold rho_to_arguments. rewrite Hm.
  destruct (is_type p "lda"), (is_type p "gga"); cbn [orb negb rbind]; try reflexivity;
    destruct (f_shape rho) as [|[|[|[|]]] [|]]; reflexivity.
Qed.
(** A functional with a formula of its own. *)
Definition single (impl : modules) (p : func_p) (f : source) : Prop :=
  fp_maple p <> ""%b /\ fp_maple p <> DEORBITALIZE /\ impl (fp_maple p) = Some f.
Lemma epsilon_single I impl p f d rho mo : single impl p f ->
  epsilon_xc I impl p d rho mo = impl_invoke I f p d rho mo None.
Proof.
  intros (H1 & H2 & H3). unfold epsilon_xc.
  assert (E : forall mo, invoke I impl d rho mo p = impl_invoke I f p d rho mo None).
  { intros mo'. destruct p as [name ty ns mp sc pa aux mix]. cbn [fp_maple] in *. cbn [invoke].
    rewrite (proj2 (beqb_neq _ _) H2), (proj2 (beqb_neq _ _) H1), H3. reflexivity. }
  destruct (is_type p "mgga") eqn:Em; rewrite E; [reflexivity|].
  unfold impl_invoke. rewrite (args_without_mo p d rho mo None Em). reflexivity.
Qed.

Theorem screening_top I impl p f d rho mo a v : single impl p f -> family (fp_type p) -> nspin_ok p ->
  rho_to_arguments p d rho mo None = Ok a -> call_code I f p a = Ok v ->
  forall n, (fp_nspin p = 1%nat -> n = f_val rho []) -> (fp_nspin p = 2%nat -> n = f_val rho [0%nat] + f_val rho [1%nat]) ->
  (n < dens_threshold (fp_scal p) -> epsilon_xc I impl p d rho mo = Ok (Some 0)) /\
  (dens_threshold (fp_scal p) <= n -> epsilon_xc I impl p d rho mo = Ok v).
Proof.
  intros Hs Hf Hn Ha Hv n H1 H2. rewrite (epsilon_single I impl p f d rho mo Hs).
  pose proof (args_reject p d rho mo None a Hf Hn Ha) as W.
  rewrite (args_ok p d rho mo None Hf Hn W) in Ha. injection Ha as <-.
  assert (En : n = total_density p rho).
  { unfold total_density. destruct Hn as [E|E]; rewrite E; [apply H1, E|apply H2, E]. }
  rewrite En. exact (screening I f p d rho mo None v Hf Hn W Hv).
Qed.

(** ** C11: one level of a mixture *)
Theorem mixture_step I impl d rho mo p ps cs vs : fp_maple p = ""%b -> fp_aux p = Some ps -> fp_mix p = Some cs ->
  length cs = length ps -> Forall2 (fun q v => invoke I impl d rho mo q = Ok (Some v)) ps vs ->
  invoke I impl d rho mo p = Ok (Some (rsum (length ps) (fun i => nth i cs 0 * nth i vs 0))).
Proof.
  destruct p as [name ty ns mp sc pa aux mix]. cbn [fp_maple fp_aux fp_mix]. intros -> -> -> Hlen HF.
  cbn [invoke]. change (beqb "" DEORBITALIZE) with false. change (beqb "" "") with true. cbv iota.
  match goal with |- context [rbind (?g ps cs) _] => set (go := g) end.
  assert (G : exists xs, go ps cs = Ok xs /\ py_sum xs = Some (rsum (length ps) (fun i => nth i cs 0 * nth i vs 0))).
  { revert cs Hlen. induction HF as [|q v ps vs Hq HF IH]; intros [|c cs] Hlen; try discriminate.
    - exists []. split; reflexivity.
    - injection Hlen as Hlen. destruct (IH cs Hlen) as (xs & Ex & Es). exists (oscale c (Some v) :: xs). split.
      + cbn. rewrite Hq. cbn [rbind]. fold go. rewrite Ex. reflexivity.
      + rewrite py_sum_cons, Es. cbn [oscale oadd length]. f_equal.
        assert (R1 : forall n f, rsum (S n) f = f 0%nat + rsum n (fun i => f (S i))).
        { clear. induction n as [|n IH]; intros f; [simpl; lra|]. change (rsum (S (S n)) f) with (rsum (S n) f + f (S n)).
          rewrite IH. simpl. lra. }
        rewrite R1. reflexivity. }
  destruct G as (xs & -> & Es). cbn [rbind]. rewrite Es. reflexivity.
Qed.
(** A mixture fails when one of its components does. *)
Theorem mixture_fails I impl d rho mo p ps cs q e : fp_maple p = ""%b -> fp_aux p = Some ps -> fp_mix p = Some cs ->
  length cs = length ps -> In q ps -> invoke I impl d rho mo q = Err e -> exists e', invoke I impl d rho mo p = Err e'.
Proof.
  destruct p as [name ty ns mp sc pa aux mix]. cbn [fp_maple fp_aux fp_mix]. intros -> -> -> Hlen Hin Hq.
  cbn [invoke]. change (beqb "" DEORBITALIZE) with false. change (beqb "" "") with true. cbv iota.
  match goal with |- context [rbind (?g ps cs) _] => set (go := g) end.
  assert (G : exists e', go ps cs = Err e').
  { revert cs Hlen. induction ps as [|x ps IH]; intros [|c cs] Hlen; try discriminate; [contradiction|].
    injection Hlen as Hlen. cbn. fold go. destruct Hin as [->|Hin].
    - rewrite Hq. cbn [rbind]. eauto.
    - destruct (invoke I impl d rho mo x); cbn [rbind]; [|eauto]. destruct (IH Hin cs Hlen) as [e' ->]. cbn [rbind]. eauto. }
  destruct G as [e' ->]. cbn [rbind]. eauto.
Qed.

(** ** C12: the deorbitalized tau of the experimental interface, channel by channel *)
Theorem experimental_deorbitalize_tau I impl rho m p p0 p1 rest f g (b : bool) :
  fp_maple p = DEORBITALIZE -> fp_aux p = Some (p0 :: p1 :: rest) ->
  regular (if b then 2%nat else 1%nat) p0 -> beqb (fp_maple p0) "" = false -> impl (fp_maple p0) = Some f ->
  fp_type p0 = "mgga"%b -> f_shape rho = (if b then [2%nat] else []) ->
  exp_make I impl rho (Some m) None p1 = Ok (Some g) ->
  exp_make I impl rho (Some m) None p =
  (v <- call_code I f p0 (AMgga (spin_of rho) (grad_products 3 b rho) (laplacian 3 b rho)
     (if b then SPol (f_val rho [0%nat] * g) (f_val rho [1%nat] * g) else SUnpol (f_val rho [] * g)));;
   Ok (if Rlt_dec (total_density p0 rho) (dens_threshold (fp_scal p0)) then Some 0 else v)).
Proof.
  intros Hm Ha Hr Hne Hi Ht Hsh Hg. rewrite (experimental_deorbitalize I impl rho m p p0 p1 rest f g b Hm Ha Hr Hne Hi Ht Hsh Hg).
  unfold sv_scale, spin_of. rewrite Hsh. destruct b; reflexivity.
Qed.
