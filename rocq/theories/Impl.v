(** The evaluation path of the library: from a density (and orbitals) at a point to an
    energy density.

    - /repo/gen_repo/impl/utils.py:50-127 ([rho_to_arguments]),
    - /repo/gen_repo/impl/python_template.jinja:13-36 ([pol], [unpol], [invoke]),
    - /repo/gen_repo/python_template.jinja:9-22 (top-level [invoke]) and 62-91 (the callable
      returned for a functional),
    - /repo/gen_repo/experimental.jinja:14-126, 167-175.

    Simplifications.  Numbers are exact reals; [None] is an undefined number (NaN).  A density
    or orbital function is represented by what JAX extracts from it at the point: the shape of
    its value, its value, its first and second partial derivatives.  Python exceptions are the
    constructor [Err]; only the class of the exception is kept.  A function body is traced
    before it is run ([lax.cond] traces both branches), so an unbound name or a [None]
    argument in a formula is an error whatever branch is taken. *)
From Coq Require Import Reals List Bool QArith Arith.
From Verif Require Import Bytes Syntax Parser PostProcess Src Semantics Free Vec.
Import ListNotations.
Open Scope R_scope.

Inductive exn := ValueError | RuntimeError | IndexError | TypeError | AttributeError | NameError | SyntaxError.
Inductive res (A : Type) := Ok (a : A) | Err (e : exn).
Arguments Ok {A}. Arguments Err {A}.
Definition rbind {A B} (m : res A) (f : A -> res B) : res B :=
  match m with Ok a => f a | Err e => Err e end.
Notation "x <- m ;; k" := (rbind m (fun x => k)) (at level 61, m at next level, right associativity).

(** ** Functional records: the namedtuple made by get_p (gen_repo/utils.py:43-50) of the
    dictionary built in /repo/gen_repo/libxc/libxc.cc:86-129. *)
Record scalars := {
  cam_omega : R; cam_alpha : R; cam_beta : R; nlc_b : R; nlc_C : R;
  dens_threshold : R; zeta_threshold : R; sigma_threshold : R; tau_threshold : R }.
(** [fp_params] maps the name of a parameter, as "a" or "c[3]", to its value.  [fp_aux] and
    [fp_mix] are the attributes func_aux and mix_coef, absent when libxc has no components
    (libxc.cc:119-127). *)
Inductive func_p := FuncP {
  fp_name : bstr;
  fp_type : bstr;
  fp_nspin : nat;
  fp_maple : bstr;
  fp_scal : scalars;
  fp_params : bstr -> option R;
  fp_aux : option (list func_p);
  fp_mix : option (list R) }.

(** The attribute paths a formula can read. *)
Definition scalar_attrs (s : scalars) : list (bstr * R) := [
  ("p.cam_omega", cam_omega s); ("p.cam_alpha", cam_alpha s); ("p.cam_beta", cam_beta s);
  ("p.nlc_b", nlc_b s); ("p.nlc_C", nlc_C s); ("p.dens_threshold", dens_threshold s);
  ("p.zeta_threshold", zeta_threshold s); ("p.sigma_threshold", sigma_threshold s);
  ("p.tau_threshold", tau_threshold s)]%b.
Definition attrs_of (p : func_p) : attrs := fun x =>
  match bstrip "params." x with Some y => fp_params p y | None => assoc x (scalar_attrs (fp_scal p)) end.

(** ** Densities and orbitals at a point *)
Record field (A : Type) := Field {
  f_shape : list nat;                       (* shape of the value *)
  f_val : list nat -> A;
  f_jac : list nat -> nat -> A;             (* partial derivative along a coordinate *)
  f_hess : list nat -> nat -> nat -> A }.
Arguments Field {A}. Arguments f_shape {A}. Arguments f_val {A}. Arguments f_jac {A}. Arguments f_hess {A}.
Definition complex := (R * R)%type.

(** Arrays of shape () or (2,). *)
Inductive spinval := SUnpol (x : R) | SPol (x0 x1 : R).
Inductive grads := GUnpol (s : R) | GPol (s0 s1 s2 : R).
(** The tuple returned by rho_to_arguments: (density,), (density, s) or (density, s, l, tau). *)
Inductive fargs :=
| ALda (dens : spinval)
| AGga (dens : spinval) (s : grads)
| AMgga (dens : spinval) (s : grads) (l tau : spinval).
Definition fa_dens (a : fargs) : spinval :=
  match a with ALda d => d | AGga d _ => d | AMgga d _ _ _ => d end.

(** impl/utils.py:95-100 *)
Definition grad_products (d : nat) (polarized : bool) (rho : field R) : grads :=
  if polarized then
    GPol (dot d (f_jac rho [0%nat]) (f_jac rho [0%nat]))
         (dot d (f_jac rho [0%nat]) (f_jac rho [1%nat]))
         (dot d (f_jac rho [1%nat]) (f_jac rho [1%nat]))
  else GUnpol (dot d (f_jac rho []) (f_jac rho [])).
(** impl/utils.py:107-108: the derivative of the Jacobian along e_i, at coordinate i. *)
Definition laplacian (d : nat) (polarized : bool) (rho : field R) : spinval :=
  let lap ix := rsum d (fun i => f_hess rho ix i i) in
  if polarized then SPol (lap [0%nat]) (lap [1%nat]) else SUnpol (lap []).
(** impl/utils.py:124: sum over orbitals and coordinates of Re(conj(z) z), halved. *)
Definition conj_re (z : complex) : R := fst z * fst z - (- snd z) * snd z.
Definition orbital_tau (d N : nat) (jac : nat -> nat -> complex) : R :=
  rsum N (fun n => rsum d (fun i => conj_re (jac n i))) / 2.
Definition kinetic (d : nat) (polarized : bool) (mo : field complex) : spinval :=
  match polarized, f_shape mo with
  | true, [_; N] => SPol (orbital_tau d N (fun n => f_jac mo [0%nat; n])) (orbital_tau d N (fun n => f_jac mo [1%nat; n]))
  | _, N :: _ => SUnpol (orbital_tau d N (fun n => f_jac mo [n]))
  | _, [] => SUnpol 0
  end.
Definition sv_scale (c : R) (x : spinval) : spinval :=
  match x with SUnpol a => SUnpol (a * c) | SPol a b => SPol (a * c) (b * c) end.

(** impl/utils.py:112-123.  [mo_jac.shape] is the shape of mo's value followed by d. *)
Definition check_mo (d : nat) (polarized : bool) (mo : field complex) : res unit :=
  let sh := f_shape mo ++ [d] in
  if polarized then
    match nth_error sh 1 with
    | None => Err IndexError
    | Some n => if list_eq_dec Nat.eq_dec sh [2%nat; n; d] then Ok tt else Err ValueError
    end
  else
    match nth_error sh 0 with
    | None => Err IndexError
    | Some n => if list_eq_dec Nat.eq_dec sh [n; d] then Ok tt else Err ValueError
    end.

(** impl/utils.py:50-127; [d] is r.shape[-1]. *)
Definition is_type (p : func_p) (t : bstr) : bool := beqb (fp_type p) t.
Definition rho_to_arguments (p : func_p) (d : nat) (rho : field R) (mo : option (field complex))
    (deorbitalize : option R) : res fargs :=
  if negb (is_type p "lda" || is_type p "gga" || is_type p "mgga") then Err ValueError else
  _ <- (if is_type p "mgga" then match mo with None => Err ValueError | Some _ => Ok tt end else Ok tt);;
  density <- match f_shape rho with
             | [] => Ok (SUnpol (f_val rho []))
             | [2%nat] => Ok (SPol (f_val rho [0%nat]) (f_val rho [1%nat]))
             | _ => Err RuntimeError
             end;;
  let polarized := match density with SPol _ _ => true | SUnpol _ => false end in
  if ((fp_nspin p =? 1) && polarized) || ((fp_nspin p =? 2) && negb polarized) then Err ValueError else
  if is_type p "lda" then Ok (ALda density) else
  let s := grad_products d polarized rho in
  if is_type p "gga" then Ok (AGga density s) else
  let ll := laplacian d polarized rho in
  match mo with
  | None => Err TypeError (* jax.jacfwd(None); not reached *)
  | Some mo =>
      _ <- check_mo d polarized mo;;
      let tau := kinetic d polarized mo in
      let tau := match deorbitalize with Some x => sv_scale x density | None => tau end in
      Ok (AMgga density s ll tau)
  end.

(** ** Calling a generated formula *)

(** The arguments bound by the header of [pol] and [unpol]
    (impl/python_template.jinja:13-15, 20-22); the defaults are None. *)
Definition spin0 (x : spinval) : R := match x with SUnpol a => a | SPol a _ => a end.
Definition spin1 (x : spinval) : R := match x with SUnpol a => a | SPol _ b => b end.
Definition grad0 (s : grads) : R := match s with GUnpol a => a | GPol a _ _ => a end.
Definition grad1 (s : grads) : R := match s with GUnpol a => a | GPol _ b _ => b end.
Definition grad2 (s : grads) : R := match s with GUnpol a => a | GPol _ _ c => c end.
Definition to_pol (a : fargs) : pol_args :=
  let r := fa_dens a in
  let s := match a with ALda _ => None | AGga _ s | AMgga _ s _ _ => Some s end in
  let l := match a with AMgga _ _ l _ => Some l | _ => None end in
  let t := match a with AMgga _ _ _ t => Some t | _ => None end in
  {| p_r0 := spin0 r; p_r1 := spin1 r;
     p_s0 := option_map grad0 s; p_s1 := option_map grad1 s; p_s2 := option_map grad2 s;
     p_l0 := option_map spin0 l; p_l1 := option_map spin1 l;
     p_tau0 := option_map spin0 t; p_tau1 := option_map spin1 t |}.
Definition to_unpol (a : fargs) : unpol_args :=
  {| u_r := spin0 (fa_dens a);
     u_s := match a with ALda _ => None | AGga _ s | AMgga _ s _ _ => Some (grad0 s) end;
     u_l := match a with AMgga _ _ l _ => Some (spin0 l) | _ => None end;
     u_tau := match a with AMgga _ _ _ t => Some (spin0 t) | _ => None end |}.

(** Special functions with no definition in the repository: neither
    /repo/gen_repo/impl/utils.py nor JAX provides them. *)
Definition undefined_ops : list bstr :=
  ["br89_x"; "mbrxc_x"; "int1"; "int2"; "fd_int0"; "fd_int1"; "my_dilog"; "xbspline"; "cbspline"]%b.

(** What happens when a formula is traced in an environment. *)
Definition arg_names : list bstr := ["r0"; "r1"; "s0"; "s1"; "s2"; "l0"; "l1"; "tau0"; "tau1"]%b.
Definition missing (e : env) (x : bstr) : option exn :=
  match e x with
  | Some _ => None
  | None => Some (if attr_name x then AttributeError else if mem x arg_names then TypeError else NameError)
  end.
Fixpoint first_missing (e : env) (l : list bstr) : option exn :=
  match l with [] => None | x :: l => match missing e x with Some x => Some x | None => first_missing e l end end.
Definition run_code (I : interp) (src : list bstr) (e : env) : res (option R) :=
  match generated src with
  | None => Err SyntaxError
  | Some p =>
      if existsb (fun o => mem o undefined_ops) (prog_ops p) then Err NameError
      else match first_missing e (free p) with
           | Some x => Err x
           | None => Ok (result I e p)
           end
  end.
(** [code(p, *args)] with code = pol when nspin is 2 and unpol otherwise
    (impl/python_template.jinja:32-35); unpacking an array of the wrong shape fails. *)
Definition call_code (I : interp) (f : source) (p : func_p) (a : fargs) : res (option R) :=
  match fp_nspin p =? 2, fa_dens a with
  | true, SPol _ _ => run_code I (src_pol f) (pol_env (attrs_of p) (to_pol a))
  | false, SUnpol _ => run_code I (src_unpol f) (unpol_env (attrs_of p) (to_unpol a))
  | _, _ => Err TypeError
  end.

(** impl/python_template.jinja:27-36 *)
Definition total (nspin : nat) (x : spinval) : R :=
  if nspin =? 1 then spin0 x else match x with SUnpol a => a | SPol a b => 0 + a + b end.
Definition impl_invoke (I : interp) (f : source) (p : func_p) (d : nat) (rho : field R)
    (mo : option (field complex)) (deorbitalize : option R) : res (option R) :=
  args <- rho_to_arguments p d rho mo deorbitalize;;
  v <- call_code I f p args;;
  Ok (if Rlt_dec (total (fp_nspin p) (fa_dens args)) (dens_threshold (fp_scal p)) then Some 0 else v).

(** ** Dispatch (/repo/gen_repo/python_template.jinja:9-22)

    [impl] is the package of formula modules: getattr(impl, name). *)
Definition modules := bstr -> option source.

Definition oadd (a b : option R) : option R :=
  match a, b with Some x, Some y => Some (x + y) | _, _ => None end.
Definition oscale (c : R) (a : option R) : option R :=
  match a with Some x => Some (c * x) | None => None end.

Definition py_sum (l : list (option R)) : option R := fold_left oadd l (Some 0).

Definition DEORBITALIZE : bstr := "DEORBITALIZE".
Fixpoint invoke (I : interp) (impl : modules) (d : nat) (rho : field R) (mo : option (field complex))
    (p : func_p) {struct p} : res (option R) :=
  match p with
  | FuncP _ _ _ maple _ _ aux mix =>
      if beqb maple DEORBITALIZE then
        match aux with
        | Some (_ :: p1 :: _) =>
            _ <- invoke I impl d rho mo p1;;
            Err TypeError (* invoke(p0, rho, r, mo, deo): invoke takes at most 4 arguments *)
        | Some _ => Err IndexError
        | None => Err AttributeError
        end
      else if beqb maple "" then
        match aux, mix with
        | Some ps, Some cs =>
            vs <- (fix go (ps : list func_p) (cs : list R) : res (list (option R)) :=
                     match ps, cs with
                     | q :: ps, c :: cs =>
                         v <- invoke I impl d rho mo q;; vs <- go ps cs;; Ok (oscale c v :: vs)
                     | _, _ => Ok []
                     end) ps cs;;
            Ok (py_sum vs)
        | _, _ => Err AttributeError
        end
      else match impl maple with
           | None => Err AttributeError
           | Some f => impl_invoke I f p d rho mo None
           end
  end.

(** The callable returned for a functional: [mo] is passed on only when the functional's own
    type is mgga (/repo/gen_repo/python_template.jinja:62-81). *)
Definition epsilon_xc (I : interp) (impl : modules) (p : func_p) (d : nat) (rho : field R)
    (mo : option (field complex)) : res (option R) :=
  invoke I impl d rho (if is_type p "mgga" then mo else None) p.

(** ** The experimental interface (/repo/gen_repo/experimental.jinja)

    [o.compose(f, g1, ..., share_inputs=True)] at r is f(g1(r), ...); [o.nabla] is the
    Jacobian.  The number of coordinates is the shape (3,) of the point used to probe rho and
    mo (experimental.jinja:96-111). *)

(** experimental.jinja:56-60: None is returned for other shapes. *)
Definition exp_compute_s (rho : field R) : option grads :=
  match f_shape rho with
  | [2%nat] => Some (GPol (dot 3 (f_jac rho [0%nat]) (f_jac rho [0%nat]))
                          (dot 3 (f_jac rho [0%nat]) (f_jac rho [1%nat]))
                          (dot 3 (f_jac rho [1%nat]) (f_jac rho [1%nat])))
  | [] => Some (GUnpol (dot 3 (f_jac rho []) (f_jac rho [])))
  | _ => None
  end.
(** experimental.jinja:65-66: the trace of the Hessian over its last two axes. *)
Definition exp_compute_l (rho : field R) : spinval :=
  let tr ix := rsum 3 (fun i => f_hess rho ix i i) in
  match f_shape rho with [] => SUnpol (tr []) | _ => SPol (tr [0%nat]) (tr [1%nat]) end.
(** experimental.jinja:78-80. *)
Definition exp_compute_tau (mo : field complex) : spinval :=
  match f_shape mo with
  | [] => SUnpol 0
  | [N] => SUnpol (rsum N (fun n => rsum 3 (fun i => conj_re (f_jac mo [n] i))) / 2)
  | _ :: N :: _ =>
      SPol (rsum N (fun n => rsum 3 (fun i => conj_re (f_jac mo [0%nat; n] i))) / 2)
           (rsum N (fun n => rsum 3 (fun i => conj_re (f_jac mo [1%nat; n] i))) / 2)
  end.

(** experimental.jinja:14-20 *)
Definition exp_density (rho : field R) : spinval :=
  match f_shape rho with [] => SUnpol (f_val rho []) | _ => SPol (f_val rho [0%nat]) (f_val rho [1%nat]) end.
Definition exp_total (nspin : nat) (x : spinval) : R :=
  if nspin =? 1 then spin0 x else match x with SUnpol a => a | SPol a b => a + b end.
Definition exp_filter (I : interp) (f : source) (p : func_p) (a : fargs) : res (option R) :=
  v <- call_code I f p a;;
  Ok (if Rlt_dec (exp_total (fp_nspin p) (fa_dens a)) (dens_threshold (fp_scal p)) then Some 0 else v).

(** experimental.jinja:45-93, for a single functional.  [deo] is [deorbitalize(rho, mo)], built
    only when a meta-GGA needs it; the product of rho with it is their pointwise product. *)
Definition exp_single (I : interp) (f : source) (p : func_p) (rho : field R) (mo : option (field complex))
    (deo : option (res (option R))) : res (option R) :=
  if negb ((fp_nspin p =? 1) || (fp_nspin p =? 2)) then Err NameError (* code is unbound *) else
  if is_type p "lda" then exp_filter I f p (ALda (exp_density rho))
  else match exp_compute_s rho with
  | None => Err TypeError
  | Some s =>
      if is_type p "gga" then exp_filter I f p (AGga (exp_density rho) s)
      else if is_type p "mgga" then
        match mo with
        | None => Err TypeError (* o.nabla(None) *)
        | Some mo =>
            match deo with
            | None => exp_filter I f p (AMgga (exp_density rho) s (exp_compute_l rho) (exp_compute_tau mo))
            | Some m =>
                x <- m;;
                match x with
                | Some x => exp_filter I f p (AMgga (exp_density rho) s (exp_compute_l rho) (sv_scale x (exp_density rho)))
                | None => Ok None
                end
            end
        end
      else Err TypeError (* make_epsilon_xc returns None, which is then called *)
  end.

(** experimental.jinja:23-43.  In a mixture every component is built and evaluated, and the
    values are then zipped with the coefficients. *)
Fixpoint exp_make (I : interp) (impl : modules) (rho : field R) (mo : option (field complex))
    (deo : option (res (option R))) (p : func_p) {struct p} : res (option R) :=
  match p with
  | FuncP _ _ _ maple _ _ aux mix =>
      if beqb maple DEORBITALIZE then
        match aux with
        | Some (p0 :: p1 :: _) => exp_make I impl rho mo (Some (exp_make I impl rho mo None p1)) p0
        | Some _ => Err IndexError
        | None => Err AttributeError
        end
      else if beqb maple "" then
        match aux, mix with
        | Some ps, Some cs =>
            vs <- (fix go (ps : list func_p) : res (list (option R)) :=
                     match ps with
                     | q :: ps => v <- exp_make I impl rho mo None q;; vs <- go ps;; Ok (v :: vs)
                     | [] => Ok []
                     end) ps;;
            Ok (py_sum (map (fun vc => oscale (snd vc) (fst vc)) (combine vs cs)))
        | _, _ => Err AttributeError
        end
      else match impl maple with
           | None => Err AttributeError
           | Some f => exp_single I f p rho mo deo
           end
  end.

(** experimental.jinja:96-105 *)
Definition is_polarized (rho : field R) : res bool :=
  match f_shape rho with [2%nat] => Ok true | [] => Ok false | _ => Err ValueError end.
(** experimental.jinja:108-126 *)
Definition check_mo_shape (mo : field complex) (polarized : bool) : res unit :=
  if polarized then
    match f_shape mo with [n; _] => if n =? 2 then Ok tt else Err ValueError | _ => Err ValueError end
  else match f_shape mo with [_] => Ok tt | _ => Err ValueError end.

(** experimental.jinja:130-175: the functional [p], obtained from libxc for the spin mode of
    rho, is [get_p polarized]. *)
Definition exp_epsilon_xc (I : interp) (impl : modules) (get_p : bool -> func_p) (rho : field R)
    (mo : option (field complex)) : res (option R) :=
  polarized <- is_polarized rho;;
  let p := get_p polarized in
  _ <- (if is_type p "mgga" then match mo with Some mo => check_mo_shape mo polarized | None => Err TypeError end
        else Ok tt);;
  exp_make I impl rho (if is_type p "mgga" then mo else None) None p.
