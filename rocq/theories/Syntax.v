(** Abstract syntax of the straight-line programs in
    /repo/gen_repo/impl/prebuilt/{pol,unpol}/*.py, before and after
    [post_process] (/repo/gen_repo/impl/gen_py.py:20-50).  A program is a list of
    assignments [tN = expr], the last one being [res = expr]
    (returned by /repo/gen_repo/impl/python_template.jinja:17,24). *)
From Coq Require Import List QArith.
From Verif Require Import Bytes.
Import ListNotations.

(** Unary primitives with a fixed meaning, and [FOp name] for the special
    functions whose meaning is left to an arbitrary interpretation (erf, erfc,
    lambertw, i0, E1, erfcx, br89_x, ...). *)
Inductive fn1 :=
| FSqrt | FCbrt | FExp | FLog | FAtan | FAsinh | FAtanh | FTanh | FCosh | FSin | FCos
| FAbs | FHeaviside | FOp (name : bstr).

Inductive cmpop := CLe | CLt | CEq.

Inductive expr :=
| ENum (q : Q)                      (* numeric literal, exact decimal value *)
| EPi                               (* math.pi / jnp.pi *)
| EVar (x : bstr)                   (* local, argument, or attribute path such as params.c[0] *)
| ENeg (a : expr)
| EAdd (a b : expr) | ESub (a b : expr) | EMul (a b : expr) | EDiv (a b : expr)
| EPow (a b : expr)
| ECmp (o : cmpop) (a b : expr)
| EOr (a b : expr) | EAnd (a b : expr)
| ECond (c a b : expr)              (* lax_cond(c, a, b), impl/utils.py:42-47 *)
| EFn1 (f : fn1) (a : expr)
| EFn2 (f : bstr) (a b : expr)
| EFn3 (f : bstr) (a b c : expr).

Definition stmt : Type := bstr * expr.
Definition program : Type := list stmt.
