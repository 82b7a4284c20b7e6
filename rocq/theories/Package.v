(** The namespaces in which the package looks names up: /repo/gen_repo/impl/__init__.py:7-17 (the
    formulas, reached by getattr(impl, p.maple_name) in python_template.jinja:22 and
    experimental.jinja:47-49), the module functionals.py made from python_template.jinja:1-24, and
    /repo/gen_repo/__init__.py:7-10 (the package itself).

    A namespace is a list of bindings, the last one first; a directory is the list of its files.
    Dunder attributes other than __all__ and __version__ are not modelled. *)
From Coq Require Import Strings.Byte List Bool.
From Verif Require Import Bytes Parser Semantics Impl Records GenBuild.
Import ListNotations.

Inductive obj :=
| Helper (name : bstr)        (** an import or definition of the file itself *)
| Module (file : bstr)        (** a submodule, and the file it was read from *)
| Constructor (name : bstr).  (** the constructor of a functional *)
Definition namespace := list (bstr * obj).
Definition getattr (ns : namespace) (n : bstr) : res obj := match assoc n ns with Some o => Ok o | None => Err AttributeError end.
Definition hasattr (ns : namespace) (n : bstr) : bool := match assoc n ns with Some _ => true | None => false end.

(** ** impl/__init__.py *)
(** [:-3] *)
Fixpoint drop_last3 (s : bstr) : bstr :=
  match s with bcons a (bcons _ (bcons _ (bcons _ _)) as r) => bcons a (drop_last3 r) | _ => bnil end.
(** impl/__init__.py:10-15; every entry that ends in .py is taken to be a file. *)
Definition all_modules (files : list bstr) : list bstr :=
  map drop_last3 (filter (fun f => negb (ends_with "__init__.py" f)) (filter (glob_ext ".py") files)).
(** impl/__init__.py:7-11 *)
Definition impl_helpers : namespace :=
  map (fun n => (n, Helper n)) ["__all__"; "modules"; "glob"; "join"; "isfile"; "basename"; "dirname"]%b.
(** Importing a submodule binds its name in the package; every generated module imports utils first
    (impl/python_template.jinja:10). *)
Definition load (n : bstr) (ns : namespace) : namespace :=
  (n, Module (n +++ ".py"))%b :: (if beqb n "utils" then [] else [("utils", Module "utils.py")])%b ++ ns.
(** impl/__init__.py:17: a name the package has already is not imported. *)
Definition import_star (names : list bstr) (ns : namespace) : namespace :=
  fold_left (fun ns n => if hasattr ns n then ns else load n ns) names ns.
Definition impl_package (files : list bstr) : namespace := import_star (all_modules files) impl_helpers.
(** What the library target installs (impl/build.jinja:96-106): two files, and the output of each
    module target. *)
Definition impl_files (ls : bstr -> list bstr) : list bstr :=
  ["__init__.py"; "utils.py"]%b ++ map (fun nm => fst nm +++ ".py")%b (names_and_maple_files ls).

(** ** functionals.py and the package *)
(** python_template.jinja:1-9 *)
Definition functionals_helpers : namespace :=
  map (fun n => (n, Helper n)) ["invoke"; "get_p"; "Optional"; "Callable"; "namedtuple"; "ctypes"; "jnp"; "jax"]%b ++ [("impl", Module "impl")]%b.
(** python_template.jinja:25-94: one definition per functional, in order. *)
Definition functionals_module (names : list bstr) : namespace :=
  fold_left (fun ns n => (n, Constructor n) :: ns) names functionals_helpers.
(** What a star import takes from a module without __all__. *)
Definition public (n : bstr) : bool := negb (bprefix "_" n).
(** __init__.py:7-10: importing functionals binds the submodules it needs. *)
Definition package (names : list bstr) : namespace :=
  let ns := filter (fun b => public (fst b)) (functionals_module names) ++
            [("functionals", Module "functionals.py"); ("utils", Module "utils.py"); ("libxc", Module "libxc"); ("impl", Module "impl")]%b in
  ("__version__"%b, Helper "__version__") :: (if hasattr ns "experimental" then ns else ("experimental", Module "experimental.py")%b :: ns).
