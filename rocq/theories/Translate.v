(** The raw text of a prebuilt program against the module generated from it
    (/repo/gen_repo/impl/gen_py.py:20-50). *)
From Coq Require Import Strings.Byte List Bool NArith ZArith QArith.
From Verif Require Import Bytes Syntax Parser.
Import ListNotations.

(** ** Names *)
(** Maple prints an attribute of [p] as [p_a_attribute], a field of [p->params] as
    [params_a_field] and a row of a two-dimensional array field as [params_a_field_i_]; these are
    the names libxc's Maple files use.  In the record the field [lambda] is called [lambda_]
    (/repo/gen_repo/utils.py:31-32). *)
Definition element (f : bstr) : bstr :=
  match brev f with
  | bcons u r =>
      if Byte.eqb u "_" then
        match span is_digit r with
        | (bcons d ds, bcons v base) => if Byte.eqb v "_" then brev base +++ "[" +++ brev (bcons d ds) +++ "]" else f
        | _ => f
        end
      else f
  | bnil => f
  end%b.
(** A subscript already printed as [[j]] stays. *)
Definition field_path (f : bstr) : bstr :=
  let '(g, sub) := span (fun b => negb (Byte.eqb b "[")) f in
  (if beqb g "lambda" then "lambda_"%b else element g) +++ sub.
Definition path (x : bstr) : bstr :=
  match bstrip "p_a_" x with
  | Some f => "p." +++ field_path f
  | None => match bstrip "params_a_" x with Some f => "params." +++ field_path f | None => x end
  end.

(** ** Raw and generated expressions *)
Definition is_num (n : Z) (e : expr) : bool := match e with ENum (m # d) => Z.eqb m n && Pos.eqb d 1 | _ => false end.
Definition is_third (e : expr) : bool := match e with EDiv a b => is_num 1 a && is_num 3 b | _ => false end.
Definition fn1_eqb (f g : fn1) : bool :=
  match f, g with
  | FSqrt, FSqrt | FCbrt, FCbrt | FExp, FExp | FLog, FLog | FAtan, FAtan | FAsinh, FAsinh | FAtanh, FAtanh
  | FTanh, FTanh | FCosh, FCosh | FSin, FSin | FCos, FCos | FAbs, FAbs | FHeaviside, FHeaviside => true
  | FOp x, FOp y => beqb x y
  | _, _ => false
  end.
Definition cmp_eqb (o o' : cmpop) : bool := match o, o' with CLe, CLe | CLt, CLt | CEq, CEq => true | _, _ => false end.
Fixpoint same (e e' : expr) {struct e} : bool :=
  match e, e' with
  | ENum (n # d), ENum (n' # d') => Z.eqb n n' && Pos.eqb d d'
  | EPi, EPi => true
  | EVar x, EVar y => beqb (path x) y
  | ENeg a, ENeg a' => same a a'
  | EAdd a b, EAdd a' b' | ESub a b, ESub a' b' | EMul a b, EMul a' b' | EDiv a b, EDiv a' b'
  | EOr a b, EOr a' b' | EAnd a b, EAnd a' b' => same a a' && same b b'
  | EPow a b, EPow a' b' => negb (is_third b) && same a a' && same b b'
  | EPow a b, EFn1 FCbrt a' => is_third b && same a a'
  | ECmp o a b, ECmp o' a' b' => cmp_eqb o o' && same a a' && same b b'
  | ECond c a b, ECond c' a' b' => same c c' && same a a' && same b b'
  | EFn1 f a, EFn1 g a' => fn1_eqb f g && same a a'
  | EFn2 f a b, EFn2 g a' b' => beqb f g && same a a' && same b b'
  | EFn3 f a b c, EFn3 g a' b' c' => beqb f g && same a a' && same b b' && same c c'
  | _, _ => false
  end.
(** Assigned names are not attributes. *)
Definition local (x : bstr) : bool := beqb (path x) x && negb (bprefix "p." x) && negb (bprefix "params." x).
Fixpoint same_prog (p p' : program) : bool :=
  match p, p' with
  | [], [] => true
  | (x, e) :: p, (y, e') :: p' => beqb x y && local x && same e e' && same_prog p p'
  | _, _ => false
  end.
Definition translated (src : list bstr) (p' : program) : bool :=
  match parse raw_voc src with Some p => same_prog p p' | None => false end.
