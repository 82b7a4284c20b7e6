(** From a libxc structure to the record a functional is evaluated with.

    - /repo/gen_repo/libxc/libxc.cc:21-129 and register.h:26-79 (the native extension),
    - /repo/gen_repo/utils.py:14-50 ([dict_to_namedtuple], [get_p]).

    Simplifications.  C pointers to work functions and init functions are keys of type
    [ptr]; a C double is a real.  A Python dictionary is the list of its entries in insertion
    order.  Names are ASCII. *)
From Coq Require Import Reals List Bool ZArith Arith Strings.Byte.
From Verif Require Import Bytes Syntax Parser Src Semantics Impl.
Import ListNotations.
Open Scope R_scope.

(** ** Python values *)
Record arr := Arr { a_shape : list nat; a_data : list R }.
Inductive pval :=
| VStr (s : bstr)
| VInt (z : nat)
| VFloat (x : R)
| VArr (a : arr)
| VDict (d : list (bstr * pval))
| VList (l : list pval)
| VRec (name : bstr) (fields : list (bstr * pval)).   (* a namedtuple *)

Definition dget {A} (d : list (bstr * A)) (k : bstr) : option A := assoc k d.
Fixpoint dset {A} (d : list (bstr * A)) (k : bstr) (v : A) : list (bstr * A) :=
  match d with
  | [] => [(k, v)]
  | (k', v') :: d => if beqb k' k then (k, v) :: d else (k', v') :: dset d k v
  end.
Fixpoint dpop {A} (d : list (bstr * A)) (k : bstr) : list (bstr * A) :=
  match d with
  | [] => []
  | (k', v') :: d => if beqb k' k then d else (k', v') :: dpop d k
  end.

(** ** namedtuple (the Python standard library, collections.namedtuple) *)
Definition keywords : list bstr :=
  ["False"; "None"; "True"; "and"; "as"; "assert"; "async"; "await"; "break"; "class"; "continue";
   "def"; "del"; "elif"; "else"; "except"; "finally"; "for"; "from"; "global"; "if"; "import";
   "in"; "is"; "lambda"; "nonlocal"; "not"; "or"; "pass"; "raise"; "return"; "try"; "while";
   "with"; "yield"]%b.
Fixpoint all_bytes (f : byte -> bool) (s : bstr) : bool :=
  match s with bnil => true | bcons b s => f b && all_bytes f s end.
Definition identifier (s : bstr) : bool :=
  match s with bnil => false | bcons b s => is_alpha b && all_bytes is_word s end.
Definition usable_name (s : bstr) : bool := identifier s && negb (existsb (beqb s) keywords).
Definition usable_field (s : bstr) : bool := usable_name s && negb (bprefix "_" s).
Fixpoint distinct (l : list bstr) : bool :=
  match l with [] => true | x :: l => negb (existsb (beqb x) l) && distinct l end.
Definition namedtuple (name : bstr) (fields : list (bstr * pval)) : res pval :=
  if usable_name name && forallb usable_field (map fst fields) && distinct (map fst fields)
  then Ok (VRec name fields) else Err ValueError.

(** ** dict_to_namedtuple (/repo/gen_repo/utils.py:14-40)

    [rename] is lines 31-32.  The conversion of a value under its key is lines 34-38; the
    values are converted in the order of the entries after the renaming. *)
Definition rename {A} (d : list (bstr * A)) : list (bstr * A) :=
  match dget d "lambda" with None => d | Some v => dset (dpop d "lambda") "lambda_" v end.
Fixpoint seq {A} (d : list (bstr * (bstr -> res A))) : res (list (bstr * A)) :=
  match d with
  | [] => Ok []
  | (k, f) :: d => v <- f k;; d <- seq d;; Ok ((k, v) :: d)
  end.
Definition rmap {A B} (f : A -> res B) : list A -> res (list B) :=
  fix go l := match l with [] => Ok [] | x :: l => y <- f x;; l <- go l;; Ok (y :: l) end.

(** [convert v k] is what line 35-38 stores for the value [v] of the key [k]; [to_nt v name]
    is dict_to_namedtuple(v, name), an error when v is not a dictionary. *)
Fixpoint convert (v : pval) (k : bstr) {struct v} : res pval :=
  let to_nt (v : pval) : res pval := match v with VDict _ => convert v k | _ => Err TypeError end in
  match v with
  | VDict d =>
      fields <- seq (rename (map (fun kv => (fst kv, convert (snd kv))) d));;
      namedtuple k fields
  | VList l => l <- rmap to_nt l;; Ok (VList l)
  | VRec _ fs => l <- rmap (fun kv => to_nt (snd kv)) fs;; Ok (VList l)
  | _ => Ok v
  end.
Definition dict_to_namedtuple (v : pval) (name : bstr) : res pval :=
  match v with VDict _ => convert v name | _ => Err TypeError end.

(** Attribute access on a namedtuple. *)
Definition getattr (r : pval) (k : bstr) : option pval :=
  match r with VRec _ fs => dget fs k | _ => None end.

(** ** The native extension *)
Definition ptr := nat.
(** The fields of libxc's xc_func_type and xc_func_info_type that the extension reads.
    [x_aux] and [x_mix] are [None] for a NULL pointer. *)
Inductive xc_func := XC {
  x_name : bstr;                       (* xc_functional_get_name(info->number) *)
  x_lda : option ptr; x_gga : option ptr; x_mgga : option ptr;
  x_init : ptr;
  x_scal : scalars;
  x_nspin : nat;
  x_struct : list (bstr * arr);        (* the fields of the struct params points to *)
  x_aux : option (list xc_func);
  x_mix : option (list R) }.

(** register.h:26-40, wrap.cc.jinja: the two registries, as the calls that filled them.
    A later registration of the same key replaces an earlier one.  [registry] tells which
    fields of the parameter struct are registered for an init function. *)
Record registries := {
  registry : list (ptr * list bstr);
  work_to_maple_name : list (ptr * bstr) }.
Fixpoint last_of {A} (l : list (ptr * A)) (k : ptr) : option A :=
  match l with
  | [] => None
  | (k', v) :: l => match last_of l k with Some w => Some w | None => if Nat.eqb k' k then Some v else None end
  end.

(** A std::map is traversed in the order of its keys, bytewise (py::dict from get_params). *)
Fixpoint bltb (s t : bstr) : bool :=
  match s, t with
  | _, bnil => false
  | bnil, bcons _ _ => true
  | bcons a s, bcons b t => if Byte.eqb a b then bltb s t else N.ltb (Byte.to_N a) (Byte.to_N b)
  end.
Fixpoint insert {A} (m : list (bstr * A)) (k : bstr) (v : A) : list (bstr * A) :=
  match m with
  | [] => [(k, v)]
  | (k', v') :: m => if bltb k k' then (k, v) :: (k', v') :: m else (k', v') :: insert m k v
  end.
Definition map_set {A} (m : list (bstr * A)) (k : bstr) (v : A) : list (bstr * A) :=
  if existsb (beqb k) (map fst m) then dset m k v else insert m k v.
(** libxc.cc:23-29 and register.h:62-72.  A registered field that the struct does not have is a
    compile-time error; here it is skipped. *)
Definition get_params (rg : registries) (f : xc_func) : list (bstr * arr) :=
  match last_of (registry rg) (x_init f) with
  | None => []
  | Some fields =>
      fold_left (fun m k => match assoc k (x_struct f) with Some a => map_set m k a | None => m end) fields []
  end.

(** libxc.cc:35-72 *)
Definition work_key (f : xc_func) : option ptr :=
  match x_lda f with
  | Some k => Some k
  | None => match x_gga f with Some k => Some k | None => x_mgga f end
  end.
Definition get_maple_name (rg : registries) (f : xc_func) : res bstr :=
  if beqb (x_name f) "mgga_x_2d_prhg07_prp10" then Ok "mgga_x_2d_prp10"%b
  else if beqb (x_name f) "hyb_mgga_xc_b98" then Ok "mgga_xc_b98"%b
  else match x_aux f with
  | Some _ => Ok ""%b
  | None =>
      match work_key f with
      | Some k => match last_of (work_to_maple_name rg) k with Some n => Ok n | None => Err RuntimeError end
      | None => Err RuntimeError
      end
  end.

(** libxc.cc:74-84: [name.rfind(t, 0) == 0] says that [name] starts with [t]. *)
Definition name_to_type (name : bstr) : res bstr :=
  if bprefix "lda" name || bprefix "hyb_lda" name then Ok "lda"%b
  else if bprefix "gga" name || bprefix "hyb_gga" name then Ok "gga"%b
  else if bprefix "mgga" name || bprefix "hyb_mgga" name then Ok "mgga"%b
  else Err RuntimeError.

(** The same chain in Python: /repo/gen_repo/impl/gen_py.py:54-60, with the module name cut at
    the first dot, and /repo/gen_repo/impl/gen_maple.py:19-25.  With no branch taken the local
    [type] is unbound (UnboundLocalError, a NameError). *)
Fixpoint until_dot (s : bstr) : bstr :=
  match s with bnil => bnil | bcons b s => if Byte.eqb b "." then bnil else bcons b (until_dot s) end.
Definition gen_py_type (basename : bstr) : res bstr :=
  let name := until_dot basename in
  if bprefix "lda" name || bprefix "hyb_lda" name then Ok "lda"%b
  else if bprefix "gga" name || bprefix "hyb_gga" name then Ok "gga"%b
  else if bprefix "mgga" name || bprefix "hyb_mgga" name then Ok "mgga"%b
  else Err NameError.
Definition gen_maple_type (basename : bstr) : res bstr :=
  if bprefix "lda" basename || bprefix "hyb_lda" basename then Ok "lda"%b
  else if bprefix "gga" basename || bprefix "hyb_gga" basename then Ok "gga"%b
  else if bprefix "mgga" basename || bprefix "hyb_mgga" basename then Ok "mgga"%b
  else Err NameError.

(** libxc.cc:86-129.  [heap n] is what an array of n doubles holds when pybind11 is given a
    NULL data pointer (py::array allocates and leaves the contents as they are). *)
Definition scalar_fields (s : scalars) : list (bstr * pval) := [
  ("cam_omega", VFloat (cam_omega s)); ("cam_alpha", VFloat (cam_alpha s)); ("cam_beta", VFloat (cam_beta s));
  ("nlc_b", VFloat (nlc_b s)); ("nlc_C", VFloat (nlc_C s)); ("dens_threshold", VFloat (dens_threshold s));
  ("zeta_threshold", VFloat (zeta_threshold s)); ("sigma_threshold", VFloat (sigma_threshold s));
  ("tau_threshold", VFloat (tau_threshold s))]%b.
Definition mix_array (heap : nat -> list R) (n : nat) (mix : option (list R)) : arr :=
  Arr [n] match mix with Some l => l | None => heap n end.
Fixpoint xc_get_p (rg : registries) (heap : nat -> list R) (f : xc_func) {struct f} : res pval :=
  match f with
  | XC name lda gga mgga init scal nspin str aux mix =>
      maple <- get_maple_name rg f;;
      ty <- name_to_type name;;
      let base := [("name", VStr name)]%b ++ scalar_fields scal ++
                  [("params", VDict (map (fun kv => (fst kv, VArr (snd kv))) (get_params rg f)));
                   ("maple_name", VStr maple); ("type", VStr ty); ("nspin", VInt nspin)]%b in
      match aux with
      | None | Some [] => Ok (VDict base)
      | Some l =>
          l <- (fix go (l : list xc_func) : res (list pval) :=
                  match l with [] => Ok [] | g :: l => p <- xc_get_p rg heap g;; ps <- go l;; Ok (p :: ps) end) l;;
          Ok (VDict (base ++ [("func_aux", VList l); ("mix_coef", VArr (mix_array heap (length l) mix))]%b))
      end
  end.

(** /repo/gen_repo/utils.py:43-50, after the functional has been created and its parameters
    set (ExtParams.v). *)
Definition get_record (rg : registries) (heap : nat -> list R) (f : xc_func) : res pval :=
  d <- xc_get_p rg heap f;; dict_to_namedtuple d "P".

(** ** Reading a record: the attributes used by the evaluation path (Impl.v) *)
Definition as_str (v : option pval) : option bstr := match v with Some (VStr s) => Some s | _ => None end.
Definition as_num (v : option pval) : option R := match v with Some (VFloat x) => Some x | _ => None end.
Definition as_int (v : option pval) : option nat := match v with Some (VInt x) => Some x | _ => None end.

(** The name of an array element, as written in a formula: base[i] or base[i][j]. *)
Fixpoint split_at (c : byte) (s : bstr) : bstr * option bstr :=
  match s with
  | bnil => (bnil, None)
  | bcons b s => if Byte.eqb b c then (bnil, Some s) else let '(x, r) := split_at c s in (bcons b x, r)
  end.
Definition digit_val (b : byte) : nat := N.to_nat (Byte.to_N b - 48).
Fixpoint nat_of_digits (acc : nat) (s : bstr) : nat :=
  match s with bnil => acc | bcons b s => nat_of_digits (10 * acc + digit_val b) s end.
Fixpoint flat_index (shape ix : list nat) (acc : nat) : option nat :=
  match shape, ix with
  | [], [] => Some acc
  | n :: shape, i :: ix => if i <? n then flat_index shape ix (acc * n + i) else None
  | _, _ => None
  end%nat.
Fixpoint indices (fuel : nat) (s : bstr) : list nat :=
  match fuel with
  | O => []
  | S fuel =>
      match split_at "]" s with
      | (ds, Some rest) => nat_of_digits 0 ds :: match bstrip "[" rest with Some rest => indices fuel rest | None => [] end
      | _ => []
      end
  end.
Definition param_of (fields : list (bstr * pval)) (y : bstr) : option R :=
  let '(base, rest) := split_at "[" y in
  let ix := match rest with None => [] | Some s => indices (blen s) s end in
  match dget fields base with
  | Some (VArr a) => match flat_index (a_shape a) ix 0 with Some n => nth_error (a_data a) n | None => None end
  | _ => None
  end.
Definition read_scalars (r : pval) : option scalars :=
  match as_num (getattr r "cam_omega"), as_num (getattr r "cam_alpha"), as_num (getattr r "cam_beta"),
        as_num (getattr r "nlc_b"), as_num (getattr r "nlc_C"), as_num (getattr r "dens_threshold"),
        as_num (getattr r "zeta_threshold"), as_num (getattr r "sigma_threshold"), as_num (getattr r "tau_threshold") with
  | Some a, Some b, Some c, Some d, Some e, Some f, Some g, Some h, Some i =>
      Some {| cam_omega := a; cam_alpha := b; cam_beta := c; nlc_b := d; nlc_C := e;
              dens_threshold := f; zeta_threshold := g; sigma_threshold := h; tau_threshold := i |}
  | _, _, _, _, _, _, _, _, _ => None
  end.

(** The record as the evaluation path of Impl.v sees it. *)
Fixpoint func_of (rg : registries) (heap : nat -> list R) (f : xc_func) {struct f} : res func_p :=
  match f with
  | XC name lda gga mgga init scal nspin str aux mix =>
      maple <- get_maple_name rg f;;
      ty <- name_to_type name;;
      let params := param_of (rename (map (fun kv => (fst kv, VArr (snd kv))) (get_params rg f))) in
      match aux with
      | None | Some [] => Ok (FuncP name ty nspin maple scal params None None)
      | Some l =>
          l <- (fix go (l : list xc_func) : res (list func_p) :=
                  match l with [] => Ok [] | g :: l => p <- func_of rg heap g;; ps <- go l;; Ok (p :: ps) end) l;;
          Ok (FuncP name ty nspin maple scal params (Some l) (Some (a_data (mix_array heap (length l) mix))))
      end
  end.
