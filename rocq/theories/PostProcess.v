(** Model of [post_process] in /repo/gen_repo/impl/gen_py.py:20-50: sixteen
    [regex.sub] calls applied in order to the text of a program.  The model works
    line by line: no pattern of the list can match a newline, except "[^)(]+" inside
    the recursive group of rule 7, which can only do so on a line whose
    parentheses are unbalanced.  Each rule is written out as the leftmost
    (greedy) matching behaviour of its regular expression. *)
From Coq Require Import Strings.Byte List Bool NArith.
From Verif Require Import Bytes Syntax Parser.
Import ListNotations.

(** ** Literal patterns; an unescaped [.] in the Python pattern is a wildcard *)
Inductive pchar := Lit (b : byte) | Any.
Fixpoint lits (s : bstr) : list pchar :=
  match s with bnil => [] | bcons b s => Lit b :: lits s end.
(** Python pattern text in which every [.] is the regex wildcard. *)
Fixpoint dotted (s : bstr) : list pchar :=
  match s with
  | bnil => []
  | bcons b s => (if Byte.eqb b "." then Any else Lit b) :: dotted s
  end.
Fixpoint pmatch (p : list pchar) (s : bstr) : option bstr :=
  match p, s with
  | [], _ => Some s
  | Lit a :: p, bcons b s => if Byte.eqb a b then pmatch p s else None
  | Any :: p, bcons b s => if Byte.eqb b "010" then None else pmatch p s
  | _ :: _, bnil => None
  end.

(** [re.sub(p, r, s)] for such a pattern: leftmost, non-overlapping. *)
Fixpoint sub_fuel (n : nat) (p : list pchar) (r s : bstr) : bstr :=
  match n with
  | O => s
  | S n =>
    match pmatch p s with
    | Some s' => r +++ sub_fuel n p r s'
    | None => match s with bnil => bnil | bcons b s' => bcons b (sub_fuel n p r s') end
    end
  end.
Definition sub_lit (p : list pchar) (r s : bstr) : bstr := sub_fuel (S (blen s)) p r s.

(** ** Rule 2, gen_py.py:24: ["0+e" -> "e"] *)
Definition is_zero (b : byte) : bool := match b with "0" => true | _ => false end%byte.
Fixpoint rule_zeros_fuel (n : nat) (s : bstr) : bstr :=
  match n with
  | O => s
  | S n =>
    match s with
    | bnil => bnil
    | bcons b s' =>
        if is_zero b then
          let '(zs, r) := span is_zero s in
          match bstrip "e" r with
          | Some r' => bcons "e" (rule_zeros_fuel n r')
          | None => zs +++ rule_zeros_fuel n r
          end
        else bcons b (rule_zeros_fuel n s')
    end
  end.
Definition rule_zeros (s : bstr) : bstr := rule_zeros_fuel (S (blen s)) s.

(** ** Rule 3, gen_py.py:26: ["([\d\.]+)e0+" -> "\1"] *)
Definition is_numch (b : byte) : bool :=
  match b with
  | "0" | "1" | "2" | "3" | "4" | "5" | "6" | "7" | "8" | "9" | "." => true
  | _ => false
  end%byte.
Fixpoint rule_e0_fuel (n : nat) (s : bstr) : bstr :=
  match n with
  | O => s
  | S n =>
    match s with
    | bnil => bnil
    | bcons b s' =>
        if is_numch b then
          let '(m, r) := span is_numch s in
          match bstrip "e0" r with
          | Some r' => m +++ rule_e0_fuel n (snd (span is_zero r'))
          | None => m +++ rule_e0_fuel n r
          end
        else bcons b (rule_e0_fuel n s')
    end
  end.
Definition rule_e0 (s : bstr) : bstr := rule_e0_fuel (S (blen s)) s.

(** ** Rule 4, gen_py.py:27: ["_(\d+)_" -> "[\1]"] *)
Definition is_us (b : byte) : bool := match b with "_" => true | _ => false end%byte.
Fixpoint rule_index_fuel (n : nat) (s : bstr) : bstr :=
  match n with
  | O => s
  | S n =>
    match s with
    | bnil => bnil
    | bcons b s' =>
        if is_us b then
          let '(d, r) := span is_digit s' in
          match d, bstrip "_" r with
          | bcons _ _, Some r' => (bcons "[" d +++ bcons "]" bnil) +++ rule_index_fuel n r'
          | _, _ => bcons b (rule_index_fuel n s')
          end
        else bcons b (rule_index_fuel n s')
    end
  end.
Definition rule_index (s : bstr) : bstr := rule_index_fuel (S (blen s)) s.

(** ** Rules 7 and 8: cube roots *)
(** [" \*\* \(0.1e1 \/ 0.3e1\)"], gen_py.py:33,37 *)
Definition cube_root_suffix : list pchar := dotted " ** (0.1e1 / 0.3e1)".

(** The rest of a balanced group "\((?:[^)(]+|(?2))*+\)" whose opening parenthesis
    has just been read at depth [d]: returns the text up to and including the
    matching parenthesis, and the remainder. *)
Fixpoint balanced (d : nat) (s : bstr) : option (bstr * bstr) :=
  match s with
  | bnil => None
  | bcons b s' =>
      if Byte.eqb b ")" then
        match d with
        | O => Some (bcons b bnil, s')
        | S d => match balanced d s' with Some (x, r) => Some (bcons b x, r) | None => None end
        end
      else
        match balanced (if Byte.eqb b "(" then S d else d) s' with
        | Some (x, r) => Some (bcons b x, r)
        | None => None
        end
  end.

(** Rule 7, gen_py.py:32-35: the greedy leading ".*" group selects the rightmost balanced group
    followed by the suffix; the trailing ".*" group consumes the line, so there is at most
    one replacement per line. *)
Fixpoint cbrt_paren (s : bstr) : option bstr :=
  match s with
  | bnil => None
  | bcons b s' =>
      match cbrt_paren s' with
      | Some r => Some (bcons b r)
      | None =>
          if Byte.eqb b "(" then
            match balanced 0 s' with
            | Some (g, r) =>
                match pmatch cube_root_suffix r with
                | Some r' => Some ("jnp.cbrt(" +++ g +++ r')
                | None => None
                end
            | None => None
            end
          else None
      end
  end.
Definition rule_cbrt_paren (s : bstr) : bstr :=
  match cbrt_paren s with Some r => r | None => s end.

(** Rule 8, gen_py.py:37: two ".*" groups separated by a space, the suffix,
    and a third ".*" group.  The second group is
    greedy: it ends at the last occurrence of the suffix; the first group is
    greedier: it ends at the last space that leaves a match. *)
Fixpoint split_last_suffix (s : bstr) : option (bstr * bstr) :=
  match s with
  | bnil => None
  | bcons b s' =>
      match split_last_suffix s' with
      | Some (x, r) => Some (bcons b x, r)
      | None => match pmatch cube_root_suffix s with Some r => Some (bnil, r) | None => None end
      end
  end.
Fixpoint cbrt_var (s : bstr) : option bstr :=
  match s with
  | bnil => None
  | bcons b s' =>
      match cbrt_var s' with
      | Some r => Some (bcons b r)
      | None =>
          if Byte.eqb b " " then
            match split_last_suffix s' with
            | Some (x, r) => Some (" jnp.cbrt(" +++ x +++ ")" +++ r)
            | None => None
            end
          else None
      end
  end%b.
Definition rule_cbrt_var (s : bstr) : bstr :=
  match cbrt_var s with Some r => r | None => s end.

(** ** The rule list, in order (gen_py.py:21-47) *)
Definition post_process (s : bstr) : bstr :=
  let s := sub_lit (lits "_a_") "." s in
  let s := rule_zeros s in
  let s := rule_e0 s in
  let s := rule_index s in
  let s := sub_lit (dotted "0.31415926535897932385e1") "jnp.pi" s in
  let s := sub_lit (dotted "math.erf") "jax.lax.erf" s in
  let s := rule_cbrt_paren s in
  let s := rule_cbrt_var s in
  let s := sub_lit (dotted "scipy.special.i0") "jax.scipy.special.i0" s in
  let s := sub_lit (dotted "scipy.special.lambertw") "lambertw" s in
  let s := sub_lit (lits "math") "jnp" s in
  let s := sub_lit (lits "atan") "arctan" s in
  let s := sub_lit (lits "asinh") "arcsinh" s in
  let s := sub_lit (lits "abs") "jnp.abs" s in
  let s := sub_lit (lits "DBL_EPSILON") eps_text s in
  sub_lit (lits "lambda") "lambda_" s.

Definition post_process_file (l : list bstr) : list bstr := map post_process l.

(** The program obtained from raw text by the translation. *)
Definition generated (src : list bstr) : option program :=
  parse jax_voc (post_process_file src).

Definition from_some (o : option program) : program :=
  match o with Some p => p | None => [] end.
