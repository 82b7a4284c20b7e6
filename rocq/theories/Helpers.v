(** The helper functions of the formulas: /repo/gen_repo/impl/utils.py:22-23 and 42-47.

    A number in a formula is a Python int (bool included: isinstance(True, int) holds), a Python
    float, or a JAX array of floating-point or integer type.  [None] is NaN. *)
From Coq Require Import Reals List Bool ZArith QArith Qreals Lra.
From Verif Require Import Bytes Syntax Parser PostProcess Src Semantics Impl.
Import ListNotations.
Open Scope R_scope.

Inductive pnum := PyInt (z : Z) | PyFloat (x : option R) | JaxFloat (x : option R) | JaxInt (z : Z).
(** utils.py:43-46 *)
Definition promote (v : pnum) : pnum := match v with PyInt z => PyFloat (Some (IZR z)) | _ => v end.
(** lax.cond accepts branches whose types agree; Python floats are weakly typed and agree with
    floating-point arrays. *)
Definition floating (v : pnum) : bool := match v with PyFloat _ | JaxFloat _ => true | _ => false end.
(** lax.cond(a, lambda _: b, lambda _: c, None): an array with the value of the selected branch. *)
Definition lax_dot_cond (a : bool) (b c : pnum) : res pnum :=
  match b, c with
  | JaxInt x, JaxInt y => Ok (JaxInt (if a then x else y))
  | PyInt x, PyInt y | PyInt x, JaxInt y | JaxInt x, PyInt y => Ok (JaxInt (if a then x else y))
  | (PyFloat x | JaxFloat x), (PyFloat y | JaxFloat y) => Ok (JaxFloat (if a then x else y))
  | _, _ => Err TypeError
  end.
(** utils.py:42-47 *)
Definition lax_cond (a : bool) (b c : pnum) : res pnum := lax_dot_cond a (promote b) (promote c).
(** utils.py:22-23: jnp.heaviside(x, 1.) *)
Definition Heaviside (x : option R) : option R :=
  match x with None => None | Some x => Some (if Rlt_dec x 0 then 0 else if Req_EM_T x 0 then 1 else 1) end.

(** The number a value stands for. *)
Definition number (v : pnum) : option R :=
  match v with PyInt z | JaxInt z => Some (IZR z) | PyFloat x | JaxFloat x => x end.
Definition int_array (v : pnum) : Prop := exists z, v = JaxInt z.

Theorem lax_cond_selects a b c : ~ int_array b -> ~ int_array c ->
  exists v, lax_cond a b c = Ok (JaxFloat v) /\ v = number (if a then b else c).
Proof.
  intros Hb Hc. destruct b as [zb|xb|xb|zb]; [| | |elim Hb; eexists; reflexivity];
    (destruct c as [zc|xc|xc|zc]; [| | |elim Hc; eexists; reflexivity]);
    unfold lax_cond; cbn [promote lax_dot_cond]; eexists; (split; [reflexivity|destruct a; reflexivity]).
Qed.
(** The operand that is not selected does not matter, even undefined. *)
Theorem lax_cond_ignores b c c' : ~ int_array b -> ~ int_array c -> ~ int_array c' ->
  lax_cond true b c = lax_cond true b c' /\ lax_cond false c b = lax_cond false c' b.
Proof.
  intros Hb Hc Hc'. destruct (lax_cond_selects true b c Hb Hc) as (v & E & V). destruct (lax_cond_selects true b c' Hb Hc') as (v' & E' & V').
  destruct (lax_cond_selects false c b Hc Hb) as (w & F & W). destruct (lax_cond_selects false c' b Hc' Hb) as (w' & F' & W').
  rewrite E, E', F, F'. split; congruence.
Qed.
(** An integer array is not promoted: next to a floating-point operand it is an error. *)
Theorem lax_cond_int_array a z v : floating v = true -> lax_cond a (JaxInt z) v = Err TypeError /\ lax_cond a v (JaxInt z) = Err TypeError.
Proof. destruct v; try discriminate; intros _; split; reflexivity. Qed.

(** A conditional in a formula is evaluated by that helper. *)
Definition as_pnum (v : option val) : option pnum :=
  match v with Some (VR x) => Some (JaxFloat (Some x)) | None => Some (JaxFloat None) | Some (VB _) => None end.
Theorem cond_is_lax_cond I rho c a b t x y : eval I rho c = Some (VB t) -> as_pnum (eval I rho a) = Some x -> as_pnum (eval I rho b) = Some y ->
  exists v, lax_cond t x y = Ok v /\ eval I rho (ECond c a b) = match number v with Some r => Some (VR r) | None => None end.
Proof.
  intros Hc Ha Hb. cbn [eval]. rewrite Hc.
  destruct (eval I rho a) as [[ra|ba]|]; cbn [as_pnum] in Ha; try discriminate; injection Ha as <-;
    (destruct (eval I rho b) as [[rb|bb]|]; cbn [as_pnum] in Hb; try discriminate; injection Hb as <-);
    eexists; (split; [reflexivity|]); destruct t; reflexivity.
Qed.
Theorem Heaviside_spec x : (0 <= x -> Heaviside (Some x) = Some 1) /\ (x < 0 -> Heaviside (Some x) = Some 0).
Proof. unfold Heaviside. split; intros H; destruct (Rlt_dec x 0); try lra; [destruct (Req_EM_T x 0); reflexivity|reflexivity]. Qed.
Theorem fheaviside I x : fn1_sem I FHeaviside x = Heaviside (Some x).
Proof. cbn [fn1_sem]. unfold Heaviside. destruct (Rle_dec 0 x), (Rlt_dec x 0); try lra; [destruct (Req_EM_T x 0); reflexivity|reflexivity]. Qed.
Theorem int_arrays_fail : ~ forall a b c, exists v, lax_cond a b c = Ok v /\ number v = number (if a then b else c).
Proof. intros H. destruct (H true (JaxInt 1) (PyFloat (Some 0))) as (v & E & _). discriminate E. Qed.
