(** Lexer and recursive-descent parser for the subset of Python used by the
    prebuilt programs.  Precedence follows the Python reference manual:
    comparison < additive < multiplicative < unary minus < power, power being
    right associative with a unary right operand. *)
From Coq Require Import Strings.Byte List Bool NArith ZArith QArith.
From Verif Require Import Bytes Syntax.
Import ListNotations.

(** ** Tokens *)
Inductive tok :=
| TNum (q : Q) | TId (s : bstr)
| TPlus | TMinus | TStar | TPow | TSlash | TLe | TLt | TEqEq | TAssign
| TLp | TRp | TComma.

(** ** Numbers: digits [. digits] [e [-] digits] *)
Definition digit_val (b : byte) : N := (code b - 48)%N.
Fixpoint digits_N (acc : N) (s : bstr) : N :=
  match s with bnil => acc | bcons b s => digits_N (acc * 10 + digit_val b)%N s end.
Definition pow10 (n : nat) : positive := Pos.pow 10 (Pos.of_nat n).
Definition p10 (n : N) : positive := match n with N0 => 1 | Npos p => Pos.pow 10 p end.

(** The rational value of a literal with integer digits [ip], fraction digits
    [fp] and exponent [(neg, ex)]. *)
Definition lit_value (ip fp : bstr) (neg : bool) (ex : bstr) : Q :=
  let m := digits_N 0 (ip +++ fp) in
  let e := digits_N 0 ex in
  let d := N.of_nat (blen fp) in
  if neg then Qred (Z.of_N m # p10 (d + e))
  else Qred ((Z.of_N m * Zpos (p10 e))%Z # p10 d).

Fixpoint span (f : byte -> bool) (s : bstr) : bstr * bstr :=
  match s with
  | bcons b s' => if f b then let '(a, r) := span f s' in (bcons b a, r) else (bnil, s)
  | bnil => (bnil, bnil)
  end.

(** Lex a number; the input starts with a digit. *)
Definition lex_exp (s : bstr) : bool * bstr * bstr :=
  match s with
  | bcons "e" s1 =>
      match s1 with
      | bcons "-" s2 =>
          let '(d, r) := span is_digit s2 in
          match d with bnil => (false, bnil, s) | _ => (true, d, r) end
      | _ =>
          let '(d, r) := span is_digit s1 in
          match d with bnil => (false, bnil, s) | _ => (false, d, r) end
      end
  | _ => (false, bnil, s)
  end.
Definition lex_num (s : bstr) : Q * bstr :=
  let '(ip, r) := span is_digit s in
  let '(fp, r) := match r with
                  | bcons "." r' => span is_digit r'
                  | _ => (bnil, r)
                  end in
  let '(neg, ex, r) := lex_exp r in
  (lit_value ip fp neg ex, r).

(** Identifiers, including dotted attribute paths and constant subscripts. *)
Definition id_cont (b : byte) : bool :=
  match b with
  | "A" | "B" | "C" | "D" | "E" | "F" | "G" | "H" | "I" | "J" | "K" | "L" | "M" | "N" |
      "O" | "P" | "Q" | "R" | "S" | "T" | "U" | "V" | "W" | "X" | "Y" | "Z" | "a" | "b" |
      "c" | "d" | "e" | "f" | "g" | "h" | "i" | "j" | "k" | "l" | "m" | "n" | "o" | "p" |
      "q" | "r" | "s" | "t" | "u" | "v" | "w" | "x" | "y" | "z" | "_" | "0" | "1" | "2" |
      "3" | "4" | "5" | "6" | "7" | "8" | "9" | "." | "[" | "]" => true
  | _ => false
  end%byte.

Fixpoint lex (fuel : nat) (s : bstr) : option (list tok) :=
  match fuel with
  | O => None
  | S fuel =>
    match s with
    | bnil => Some []
    | bcons b s' =>
      let single t r := match lex fuel r with Some l => Some (t :: l) | None => None end in
      if is_space b then lex fuel s'
      else if is_digit b then let '(q, r) := lex_num s in single (TNum q) r
      else if is_alpha b then let '(x, r) := span id_cont s in single (TId x) r
      else match b, s' with
      | "+", _ => single TPlus s'
      | "-", _ => single TMinus s'
      | "*", bcons "*" r => single TPow r
      | "*", _ => single TStar s'
      | "/", _ => single TSlash s'
      | "(", _ => single TLp s'
      | ")", _ => single TRp s'
      | ",", _ => single TComma s'
      | "<", bcons "=" r => single TLe r
      | "<", _ => single TLt s'
      | "=", bcons "=" r => single TEqEq r
      | "=", _ => single TAssign s'
      | _, _ => None
      end%byte
    end
  end.

(** ** Vocabularies: how a callee name is resolved *)
Inductive prim := P1 (f : fn1) | P2 (f : bstr) | P3 (f : bstr) | PCond | POr | PAnd.
Record vocabulary := { v_prim : bstr -> option prim; v_const : bstr -> option expr }.

Fixpoint assoc {A} (x : bstr) (l : list (bstr * A)) : option A :=
  match l with [] => None | (y, a) :: l => if beqb x y then Some a else assoc x l end.

Definition mk_call (v : vocabulary) (f : bstr) (args : list expr) : option expr :=
  match v_prim v f, args with
  | Some (P1 g), [a] => Some (EFn1 g a)
  | Some (P2 g), [a; b] => Some (EFn2 g a b)
  | Some (P3 g), [a; b; c] => Some (EFn3 g a b c)
  | Some PCond, [a; b; c] => Some (ECond a b c)
  | Some POr, [a; b] => Some (EOr a b)
  | Some PAnd, [a; b] => Some (EAnd a b)
  | _, _ => None
  end.
Definition mk_var (v : vocabulary) (x : bstr) : expr :=
  match v_const v x with Some e => e | None => EVar x end.

Section Parse.
  Variable v : vocabulary.

  Fixpoint p_cmp (n : nat) (ts : list tok) {struct n} : option (expr * list tok) :=
    match n with O => None | S n =>
      match p_sum n ts with
      | Some (a, TLe :: ts) =>
          match p_sum n ts with Some (b, ts) => Some (ECmp CLe a b, ts) | None => None end
      | Some (a, TLt :: ts) =>
          match p_sum n ts with Some (b, ts) => Some (ECmp CLt a b, ts) | None => None end
      | Some (a, TEqEq :: ts) =>
          match p_sum n ts with Some (b, ts) => Some (ECmp CEq a b, ts) | None => None end
      | r => r
      end
    end
  with p_sum (n : nat) (ts : list tok) {struct n} : option (expr * list tok) :=
    match n with O => None | S n =>
      match p_mul n ts with
      | Some (a, ts) => p_sum_rest n a ts
      | None => None
      end
    end
  with p_sum_rest (n : nat) (a : expr) (ts : list tok) {struct n} : option (expr * list tok) :=
    match n with O => None | S n =>
      match ts with
      | TPlus :: ts =>
          match p_mul n ts with Some (b, ts) => p_sum_rest n (EAdd a b) ts | None => None end
      | TMinus :: ts =>
          match p_mul n ts with Some (b, ts) => p_sum_rest n (ESub a b) ts | None => None end
      | _ => Some (a, ts)
      end
    end
  with p_mul (n : nat) (ts : list tok) {struct n} : option (expr * list tok) :=
    match n with O => None | S n =>
      match p_un n ts with
      | Some (a, ts) => p_mul_rest n a ts
      | None => None
      end
    end
  with p_mul_rest (n : nat) (a : expr) (ts : list tok) {struct n} : option (expr * list tok) :=
    match n with O => None | S n =>
      match ts with
      | TStar :: ts =>
          match p_un n ts with Some (b, ts) => p_mul_rest n (EMul a b) ts | None => None end
      | TSlash :: ts =>
          match p_un n ts with Some (b, ts) => p_mul_rest n (EDiv a b) ts | None => None end
      | _ => Some (a, ts)
      end
    end
  with p_un (n : nat) (ts : list tok) {struct n} : option (expr * list tok) :=
    match n with O => None | S n =>
      match ts with
      | TMinus :: ts => match p_un n ts with Some (a, ts) => Some (ENeg a, ts) | None => None end
      | _ =>
        match p_atom n ts with
        | Some (a, TPow :: ts) =>
            match p_un n ts with Some (b, ts) => Some (EPow a b, ts) | None => None end
        | r => r
        end
      end
    end
  with p_atom (n : nat) (ts : list tok) {struct n} : option (expr * list tok) :=
    match n with O => None | S n =>
      match ts with
      | TNum q :: ts => Some (ENum q, ts)
      | TId f :: TLp :: ts =>
          match p_args n ts with
          | Some (args, ts) =>
              match mk_call v f args with Some e => Some (e, ts) | None => None end
          | None => None
          end
      | TId x :: ts => Some (mk_var v x, ts)
      | TLp :: ts =>
          match p_cmp n ts with
          | Some (a, TRp :: ts) => Some (a, ts)
          | _ => None
          end
      | _ => None
      end
    end
  with p_args (n : nat) (ts : list tok) {struct n} : option (list expr * list tok) :=
    match n with O => None | S n =>
      match p_cmp n ts with
      | Some (a, TRp :: ts) => Some ([a], ts)
      | Some (a, TComma :: ts) =>
          match p_args n ts with Some (l, ts) => Some (a :: l, ts) | None => None end
      | _ => None
      end
    end.

  (** One line [x = expr]. *)
  Definition parse_line (s : bstr) : option stmt :=
    match lex (S (blen s)) s with
    | Some (TId x :: TAssign :: ts) =>
        match p_cmp (10 * length ts + 10) ts with
        | Some (e, []) => Some (x, e)
        | _ => None
        end
    | _ => None
    end.

  Fixpoint parse (l : list bstr) : option program :=
    match l with
    | [] => Some []
    | s :: l =>
        match parse_line s, parse l with
        | Some st, Some p => Some (st :: p)
        | _, _ => None
        end
    end.
End Parse.

(** ** The two vocabularies *)

(** Names as printed by Maple's Python code generator: [math.*], [scipy.special.*],
    plus the helper names used verbatim in generated modules. *)
Definition raw_prims : list (bstr * prim) := [
  ("math.sqrt", P1 FSqrt); ("math.exp", P1 FExp); ("math.log", P1 FLog);
  ("math.atan", P1 FAtan); ("math.asinh", P1 FAsinh); ("math.atanh", P1 FAtanh);
  ("math.tanh", P1 FTanh); ("math.cosh", P1 FCosh); ("math.sin", P1 FSin); ("math.cos", P1 FCos);
  ("abs", P1 FAbs); ("Heaviside", P1 FHeaviside);
  ("math.erf", P1 (FOp "erf")); ("math.erfc", P1 (FOp "erfc"));
  ("scipy.special.lambertw", P1 (FOp "lambertw")); ("scipy.special.i0", P1 (FOp "i0"));
  ("xc_E1_scaled", P1 (FOp "xc_E1_scaled")); ("xc_erfcx", P1 (FOp "xc_erfcx"));
  ("br89_x", P1 (FOp "br89_x")); ("mbrxc_x", P1 (FOp "mbrxc_x"));
  ("int1", P1 (FOp "int1")); ("int2", P1 (FOp "int2"));
  ("fd_int0", P1 (FOp "fd_int0")); ("fd_int1", P1 (FOp "fd_int1"));
  ("my_dilog", P1 (FOp "my_dilog"));
  ("math.atan2", P2 "atan2");
  ("xbspline", P3 "xbspline"); ("cbspline", P3 "cbspline");
  ("lax_cond", PCond); ("jnp.logical_or", POr); ("jnp.logical_and", PAnd)]%b.

(** Names in scope of a generated module: /repo/gen_repo/impl/python_template.jinja:3-10
    imports jax, jnp and everything of /repo/gen_repo/impl/utils.py (Heaviside,
    xc_E1_scaled, lambertw, xc_erfcx, lax_cond).  The last nine names have no
    definition anywhere in the repository. *)
Definition jax_prims : list (bstr * prim) := [
  ("jnp.sqrt", P1 FSqrt); ("jnp.exp", P1 FExp); ("jnp.log", P1 FLog); ("jnp.cbrt", P1 FCbrt);
  ("jnp.arctan", P1 FAtan); ("jnp.arcsinh", P1 FAsinh); ("jnp.arctanh", P1 FAtanh);
  ("jnp.tanh", P1 FTanh); ("jnp.cosh", P1 FCosh); ("jnp.sin", P1 FSin); ("jnp.cos", P1 FCos);
  ("jnp.abs", P1 FAbs); ("Heaviside", P1 FHeaviside);
  ("jax.lax.erf", P1 (FOp "erf")); ("jax.lax.erfc", P1 (FOp "erfc"));
  ("lambertw", P1 (FOp "lambertw")); ("jax.scipy.special.i0", P1 (FOp "i0"));
  ("xc_E1_scaled", P1 (FOp "xc_E1_scaled")); ("xc_erfcx", P1 (FOp "xc_erfcx"));
  ("jnp.arctan2", P2 "atan2");
  ("lax_cond", PCond); ("jnp.logical_or", POr); ("jnp.logical_and", PAnd);
  ("br89_x", P1 (FOp "br89_x")); ("mbrxc_x", P1 (FOp "mbrxc_x"));
  ("int1", P1 (FOp "int1")); ("int2", P1 (FOp "int2"));
  ("fd_int0", P1 (FOp "fd_int0")); ("fd_int1", P1 (FOp "fd_int1"));
  ("my_dilog", P1 (FOp "my_dilog"));
  ("xbspline", P3 "xbspline"); ("cbspline", P3 "cbspline")]%b.

(** The decimal text of [jnp.finfo(float).eps] inserted by gen_py.py:44. *)
Definition eps_text : bstr := "2.220446049250313e-16".
Definition eps_q : Q := fst (lex_num eps_text).

Definition raw_voc : vocabulary := {|
  v_prim := fun f => assoc f raw_prims;
  v_const := fun x => assoc x [("math.pi", EPi); ("DBL_EPSILON", ENum eps_q)]%b |}.
Definition jax_voc : vocabulary := {|
  v_prim := fun f => assoc f jax_prims;
  v_const := fun x => assoc x [("jnp.pi", EPi)]%b |}.
