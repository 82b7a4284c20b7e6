(** Meaning of a generated program over the exact real numbers.

    [None] stands for undefined arithmetic: division by zero, logarithm of a
    non-positive number, even root or non-integral power of a negative number,
    zero to a negative power, an argument that is itself undefined (for instance
    an input that the caller did not supply), an ill-typed operand or an unbound
    name.  Floating-point rounding, overflow and NaN/inf propagation are not
    modelled.

    [lax_cond] (/repo/gen_repo/impl/utils.py:42-47) selects one of two already
    computed operands: an undefined operand that is not selected is discarded, as
    JAX discards the NaN of the branch not taken.  For the same reason a temporary
    may hold an undefined value until it is used. *)
From Coq Require Import Reals List QArith Qreals Lra.
From Verif Require Import Bytes Syntax Parser PostProcess Src.
Import ListNotations.
Open Scope R_scope.

Inductive val := VR (r : R) | VB (b : bool).

(** Arbitrary meaning of the special functions. *)
Record interp := {
  op1 : bstr -> R -> option R;
  op2 : bstr -> R -> R -> option R;
  op3 : bstr -> R -> R -> R -> option R }.

Definition env := bstr -> option val.
Definition upd (rho : env) (x : bstr) (v : option val) : env :=
  fun y => if beqb y x then v else rho y.

Definition bool_of {P : Prop} (d : {P} + {~ P}) : bool := if d then true else false.
Definition Rleb (x y : R) : bool := if Rle_dec x y then true else false.
Definition Rltb (x y : R) : bool := if Rlt_dec x y then true else false.
Definition Reqb (x y : R) : bool := if Req_EM_T x y then true else false.

(** The real (odd) cube root computed by [jnp.cbrt]. *)
Definition Rcbrt (x : R) : R :=
  if Rlt_dec 0 x then Rpower x (1 / 3)
  else if Req_EM_T x 0 then 0 else - Rpower (- x) (1 / 3).

(** [x ** y]. *)
Definition pypow (x y : R) : option R :=
  if Rlt_dec 0 x then Some (Rpower x y)
  else if Req_EM_T y (IZR (Int_part y)) then
    (* integral exponent *)
    if Req_EM_T x 0 then
      if Rlt_dec 0 y then Some 0 else if Req_EM_T y 0 then Some 1 else None
    else Some (powerRZ x (Int_part y))
  else if Req_EM_T x 0 then if Rlt_dec 0 y then Some 0 else None
  else None.

Definition Ratanh (x : R) : R := ln ((1 + x) / (1 - x)) / 2.

Definition fn1_sem (I : interp) (f : fn1) (x : R) : option R :=
  match f with
  | FSqrt => if Rle_dec 0 x then Some (sqrt x) else None
  | FCbrt => Some (Rcbrt x)
  | FExp => Some (exp x)
  | FLog => if Rlt_dec 0 x then Some (ln x) else None
  | FAtan => Some (atan x)
  | FAsinh => Some (arcsinh x)
  | FAtanh => if Rlt_dec (Rabs x) 1 then Some (Ratanh x) else None
  | FTanh => Some (tanh x)
  | FCosh => Some (cosh x)
  | FSin => Some (sin x)
  | FCos => Some (cos x)
  | FAbs => Some (Rabs x)
  (* jnp.heaviside(x, 1.), impl/utils.py:22-23 *)
  | FHeaviside => Some (if Rle_dec 0 x then 1 else 0)
  | FOp n => op1 I n x
  end.

Definition cmp_sem (o : cmpop) (x y : R) : bool :=
  match o with CLe => Rleb x y | CLt => Rltb x y | CEq => Reqb x y end.

Definition lift2 (f : R -> R -> option R) (a b : option val) : option val :=
  match a, b with
  | Some (VR x), Some (VR y) => match f x y with Some z => Some (VR z) | None => None end
  | _, _ => None
  end.
Definition lift1 (f : R -> option R) (a : option val) : option val :=
  match a with
  | Some (VR x) => match f x with Some z => Some (VR z) | None => None end
  | _ => None
  end.

Fixpoint eval (I : interp) (rho : env) (e : expr) : option val :=
  match e with
  | ENum q => Some (VR (Q2R q))
  | EPi => Some (VR PI)
  | EVar x => rho x
  | ENeg a => lift1 (fun x => Some (- x)) (eval I rho a)
  | EAdd a b => lift2 (fun x y => Some (x + y)) (eval I rho a) (eval I rho b)
  | ESub a b => lift2 (fun x y => Some (x - y)) (eval I rho a) (eval I rho b)
  | EMul a b => lift2 (fun x y => Some (x * y)) (eval I rho a) (eval I rho b)
  | EDiv a b =>
      lift2 (fun x y => if Req_EM_T y 0 then None else Some (x / y)) (eval I rho a) (eval I rho b)
  | EPow a b => lift2 pypow (eval I rho a) (eval I rho b)
  | ECmp o a b =>
      match eval I rho a, eval I rho b with
      | Some (VR x), Some (VR y) => Some (VB (cmp_sem o x y))
      | _, _ => None
      end
  | EOr a b =>
      match eval I rho a, eval I rho b with
      | Some (VB x), Some (VB y) => Some (VB (orb x y))
      | _, _ => None
      end
  | EAnd a b =>
      match eval I rho a, eval I rho b with
      | Some (VB x), Some (VB y) => Some (VB (andb x y))
      | _, _ => None
      end
  | ECond c a b =>
      match eval I rho c with
      | Some (VB true) => lift1 Some (eval I rho a)
      | Some (VB false) => lift1 Some (eval I rho b)
      | _ => None
      end
  | EFn1 f a => lift1 (fn1_sem I f) (eval I rho a)
  | EFn2 f a b => lift2 (op2 I f) (eval I rho a) (eval I rho b)
  | EFn3 f a b c =>
      match eval I rho a, eval I rho b, eval I rho c with
      | Some (VR x), Some (VR y), Some (VR z) =>
          match op3 I f x y z with Some w => Some (VR w) | None => None end
      | _, _, _ => None
      end
  end.

Fixpoint exec (I : interp) (rho : env) (p : program) : env :=
  match p with
  | [] => rho
  | (x, e) :: p => exec I (upd rho x (eval I rho e)) p
  end.

(** The value returned by the function body ([return res]). *)
Definition result (I : interp) (rho : env) (p : program) : option R :=
  match exec I rho p "res"%b with Some (VR r) => Some r | _ => None end.

(** The value computed by the program generated from raw text. *)
Definition run_text (I : interp) (src : list bstr) (rho : env) : option R :=
  match generated src with Some p => result I rho p | None => None end.

(** ** Arguments of the generated functions [pol] and [unpol]
    (/repo/gen_repo/impl/python_template.jinja:13-25).

    [attrs] gives the numbers reachable through [p]: [p.zeta_threshold],
    [p.dens_threshold], [p.cam_omega], ..., and [params.x] for [p.params.x]. *)
Definition attrs := bstr -> option R.
Definition attr_name (x : bstr) : bool := orb (bprefix "p." x) (bprefix "params." x).
Definition opt_val (o : option R) : option val :=
  match o with Some r => Some (VR r) | None => None end.

Fixpoint bind_args (l : list (bstr * option R)) (rho : env) : env :=
  match l with [] => rho | (x, v) :: l => upd (bind_args l rho) x (opt_val v) end.

Record pol_args := {
  p_r0 : R; p_r1 : R;
  p_s0 : option R; p_s1 : option R; p_s2 : option R;
  p_l0 : option R; p_l1 : option R;
  p_tau0 : option R; p_tau1 : option R }.
Record unpol_args := { u_r : R; u_s : option R; u_l : option R; u_tau : option R }.

(** Before the arguments are bound only attribute paths have a value. *)
Definition attr_env (A : attrs) : env := fun x => if attr_name x then opt_val (A x) else None.
Definition pol_env (A : attrs) (a : pol_args) : env :=
  bind_args [("r0"%b, Some (p_r0 a)); ("r1"%b, Some (p_r1 a));
             ("s0"%b, p_s0 a); ("s1"%b, p_s1 a); ("s2"%b, p_s2 a);
             ("l0"%b, p_l0 a); ("l1"%b, p_l1 a); ("tau0"%b, p_tau0 a); ("tau1"%b, p_tau1 a)]
            (attr_env A).
Definition unpol_env (A : attrs) (a : unpol_args) : env :=
  bind_args [("r0"%b, Some (u_r a)); ("s0"%b, u_s a); ("l0"%b, u_l a); ("tau0"%b, u_tau a)]
            (attr_env A).

(** The functions [pol(p, r, s, l, tau)] and [unpol(p, r, s, l, tau)] of the module
    generated for a functional. *)
Definition pol (f : source) (I : interp) (A : attrs) (a : pol_args) : option R :=
  run_text I (src_pol f) (pol_env A a).
Definition unpol (f : source) (I : interp) (A : attrs) (a : unpol_args) : option R :=
  run_text I (src_unpol f) (unpol_env A a).
