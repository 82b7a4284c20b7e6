(** Constructors of the functionals: from the arguments of jax_xc.<name>(...) to the libxc
    structure whose record is evaluated.

    - /repo/gen_repo/gen_py.py:21-40, 57-94 (what the generator knows of a functional),
    - /repo/gen_repo/python_template.jinja:26-31, 58-91 (the generated constructor),
    - /repo/gen_repo/experimental.jinja:129-140, 167-175 (its experimental counterpart),
    - /repo/gen_repo/utils.py:43-50 ([get_p]).

    Not modelled: docstrings, bibliography, the text layer of the template (a constructor is a
    value of type [ctor], not Python text).  Outside the repository: pylibxc, of which
    [set_ext_params] is modelled as checking the number of values. *)
From Coq Require Import Reals List Bool Arith Strings.Byte.
From Verif Require Import Bytes Syntax Parser PostProcess Src Semantics Impl Records.
Import ListNotations.
Open Scope R_scope.

(** ** Parameter names (/repo/gen_repo/gen_py.py:21-29) *)

(** A match of "\[(\d+)\]" at the beginning of [s]: the digits and the rest. *)
Definition match_index (s : bstr) : option (bstr * bstr) :=
  match bstrip "[" s with
  | Some s =>
      let '(d, r) := span is_digit s in
      match d, bstrip "]" r with bcons _ _, Some r => Some (d, r) | _, _ => None end
  | None => None
  end.
(** gen_py.py:23: re.sub(r"\[(\d+)\]", r"_\1_", s) *)
Fixpoint sub_index_fuel (n : nat) (s : bstr) : bstr :=
  match n with
  | O => s
  | S n =>
      match match_index s with
      | Some (d, r) => (bcons "_" d +++ bcons "_" bnil) +++ sub_index_fuel n r
      | None => match s with bnil => bnil | bcons b s => bcons b (sub_index_fuel n s) end
      end
  end.
Definition sub_index (s : bstr) : bstr := sub_index_fuel (S (blen s)) s.
(** gen_py.py:25: re.sub("lambda", "lambda_", s) *)
Definition sub_lambda (s : bstr) : bstr := sub_lit (lits "lambda") "lambda_" s.
Definition param_name (s : bstr) : bstr := sub_lambda (sub_index s).

(** ** What libxc knows of a functional *)
Record lib_func := {
  l_names : list bstr;                        (* xc_func_info_get_ext_params_name *)
  l_defaults : list R;                        (* xc_func_info_get_ext_params_default_value *)
  l_with : nat -> list R -> xc_func }.        (* the structure for a spin mode and parameter values *)

(** gen_py.py:32-40: dict(zip(names, defaults)).  The clause except AttributeError concerns
    versions of pylibxc without these methods. *)
Definition py_dict {A} (l : list (bstr * A)) : list (bstr * A) := fold_left (fun d kv => dset d (fst kv) (snd kv)) l [].
Definition ext_params (f : lib_func) : list (bstr * R) := py_dict (combine (map param_name (l_names f)) (l_defaults f)).

(** ** The generated constructor *)
Record ctor := Ctor {
  g_params : list (bstr * R);                 (* the loops of python_template.jinja:28-30 and 58-60 *)
  g_maple : bstr;                             (* line 83: p.maple_name when the module is generated *)
  g_type : bstr }.                            (* line 81 *)

Section Gen.
Variables (rg : registries) (heap : nat -> list R).

(** gen_py.py:57-86: the record is that of the unpolarized functional with default values. *)
Definition gen_ctor (f : lib_func) : res ctor :=
  p <- get_record rg heap (l_with f 1 (l_defaults f));;
  match as_str (getattr p "maple_name"), as_str (getattr p "type") with
  | Some m, Some t => Ok (Ctor (ext_params f) m t)
  | _, _ => Err AttributeError
  end.

(** The generated module compiles when the parameters of every constructor are identifiers that
    are no keywords, pairwise distinct and distinct from the fixed ones. *)
Definition main_fixed : list bstr := ["polarized"]%b.
Definition exp_fixed (c : ctor) : list bstr := (if beqb (g_type c) "mgga" then ["rho"; "mo"] else ["rho"])%b.
Definition def_ok (fixed : list bstr) (c : ctor) : bool :=
  forallb usable_name (map fst (g_params c)) && distinct (fixed ++ map fst (g_params c)).

(** Binding the arguments of a call: [pos] are the positional arguments after polarized, [kw] the
    keyword arguments.  Python's rules: not too many, no unknown keyword, none given twice. *)
Definition bind (names : list bstr) (pos : list (option R)) (kw : list (bstr * option R)) : res (bstr -> option R) :=
  if Nat.ltb (length names) (length pos) then Err TypeError
  else
    let given := combine names pos ++ kw in
    if distinct (map fst given) && forallb (fun k => existsb (beqb k) names) (map fst kw)
    then Ok (fun k => match assoc k given with Some v => v | None => None end)
    else Err TypeError.

(** x or d: an omitted value and zero are false. *)
Definition py_or (x : option R) (d : R) : R :=
  match x with None => d | Some x => if Req_EM_T x 0 then d else x end.
(** python_template.jinja:58-60: x = (x or default), one parameter after the other. *)
Definition run_defaults (params : list (bstr * R)) (env : bstr -> option R) : bstr -> option R :=
  fold_left (fun env kd => fun k => if beqb k (fst kd) then Some (py_or (env (fst kd)) (snd kd)) else env k) params env.

(** gen_repo/utils.py:43-46: the structure get_p reads.  set_ext_params is called when there is
    a value; pylibxc raises ValueError unless there is one value for each parameter. *)
Definition configure (f : lib_func) (nspin : nat) (ext : list R) : res xc_func :=
  match ext with
  | [] => Ok (l_with f nspin (l_defaults f))
  | _ => if Nat.eqb (length ext) (length (l_names f)) then Ok (l_with f nspin ext) else Err ValueError
  end.
Definition values (names : list bstr) (env : bstr -> option R) : list R :=
  map (fun k => match env k with Some x => x | None => 0 end) names.

(** python_template.jinja:61: p = get_p(name, polarized, ...); a parameter called get_p hides the
    function.  [construct] returns the structure; the record is [get_record] of it. *)
Definition construct (f : lib_func) (c : ctor) (polarized : bool) (pos : list (option R)) (kw : list (bstr * option R)) : res xc_func :=
  if def_ok main_fixed c then
    let names := map fst (g_params c) in
    env <- bind names pos kw;;
    let env := run_defaults (g_params c) env in
    if existsb (beqb "get_p") names then Err TypeError
    else configure f (if polarized then 2%nat else 1%nat) (values names env)
  else Err SyntaxError.

(** experimental.jinja:167-174: keyword arguments only; polarized comes from the shape of rho
    (modelled in Impl.v).  Here also is_polarized and check_mo_shape are called by name. *)
Definition exp_hidden (c : ctor) : list bstr := if beqb (g_type c) "mgga" then ["get_p"; "is_polarized"; "check_mo_shape"; "make_epsilon_xc"]%b
  else ["get_p"; "is_polarized"; "make_epsilon_xc"]%b.
Definition exp_construct (f : lib_func) (c : ctor) (polarized : bool) (kw : list (bstr * option R)) : res xc_func :=
  if def_ok (exp_fixed c) c then
    let names := map fst (g_params c) in
    env <- bind names [] kw;;
    let env := run_defaults (g_params c) env in
    if existsb (fun k => existsb (beqb k) names) (exp_hidden c) then Err TypeError
    else configure f (if polarized then 2%nat else 1%nat) (values names env)
  else Err SyntaxError.

(** ** Attributes of the returned callable (python_template.jinja:83-89) *)
Definition hybrid_names : list bstr := ["cam_alpha"; "cam_beta"; "cam_omega"; "nlc_b"; "nlc_C"]%b.
Fixpoint read_attrs (r : pval) (l : list bstr) : res (list (bstr * pval)) :=
  match l with
  | [] => Ok []
  | k :: l => match getattr r k with Some v => vs <- read_attrs r l;; Ok ((k, v) :: vs) | None => Err AttributeError end
  end.
Definition callable_attrs (c : ctor) (x : xc_func) : res (list (bstr * pval)) :=
  r <- get_record rg heap x;;
  if beqb (g_maple c) "" then read_attrs r hybrid_names else Ok [].
(** experimental.jinja:37-42: set when the record of the call has no formula. *)
Definition exp_callable_attrs (x : xc_func) : res (list (bstr * pval)) :=
  r <- get_record rg heap x;;
  match as_str (getattr r "maple_name") with
  | Some m => if beqb m "" then read_attrs r hybrid_names else Ok []
  | None => Err AttributeError
  end.
End Gen.
