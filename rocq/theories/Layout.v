(** The Bazel repository rules: /repo/gen_repo/gen_repo.bzl:9-109 (the tree the package is built
    from) and /repo/gen_repo/python.bzl:6-70 (the tags of the wheel); also the listing made by
    /repo/gen_repo/gen_build.py:19-29, which no rule runs.

    A file tree is the list of its entries; a path is the list of its components, relative to the
    repository.  What Bazel and the shell do to a tree is written down below: a command whose return
    code the rule does not look at leaves the tree as it is when it fails; an operation of [rctx]
    that fails ends the rule (RuntimeError). *)
From Coq Require Import Strings.Byte List Bool Lia PeanoNat.
From Verif Require Import Bytes Impl Records GenBuild.
Import ListNotations.

Definition path := list bstr.
Inductive node := Dir | File (content : bstr) | Link (label : bstr) | Build (rules : list rule).
Definition tree := list (path * node).
Fixpoint path_eqb (p q : path) : bool :=
  match p, q with [], [] => true | x :: p, y :: q => beqb x y && path_eqb p q | _, _ => false end.
(** What is left of [q] below [p]. *)
Fixpoint under (p q : path) : option path :=
  match p, q with [], q => Some q | x :: p, y :: q => if beqb x y then under p q else None | _ :: _, [] => None end.
Fixpoint look (p : path) (F : tree) : option node :=
  match F with [] => None | (q, n) :: F => if path_eqb q p then Some n else look p F end.
(** The entries of a directory. *)
Definition entry (p q : path) : list bstr := match under p q with Some [x] => [x] | _ => [] end.
Definition ls (p : path) (F : tree) : list bstr := flat_map (fun e => entry p (fst e)) F.
Definition is_dir (p : path) (F : tree) : bool :=
  match p with [] => true | _ => match look p F with Some Dir => true | _ => false end end.

(** ** Operations *)
(** rctx.file, and open(..., "w") *)
Definition put (p : path) (n : node) (F : tree) : tree := (p, n) :: filter (fun e => negb (path_eqb (fst e) p)) F.
(** rctx.delete *)
Definition delete (p : path) (F : tree) : tree := filter (fun e => match under p (fst e) with Some _ => false | None => true end) F.
(** rctx.patch: a patch of one file; [edit] is what it does to the file, None if it does not apply. *)
Definition patch (p : path) (edit : bstr -> option bstr) (F : tree) : res tree :=
  match look p F with
  | Some (File c) =>
      match edit c with
      | Some c' => Ok (map (fun e => if path_eqb (fst e) p then (p, File c') else e) F)
      | None => Err RuntimeError
      end
  | _ => Err RuntimeError
  end.
(** mkdir; mkdir -p *)
Definition mkdir (p : path) (F : tree) : tree :=
  match look p F with None => if is_dir (removelast p) F then (p, Dir) :: F else F | Some _ => F end.
Fixpoint mkdirs (done rest : path) (F : tree) : option tree :=
  match rest with
  | [] => Some F
  | x :: r =>
      let q := done ++ [x] in
      match look q F with
      | Some Dir => mkdirs q r F
      | None => mkdirs q r ((q, Dir) :: F)
      | Some _ => None
      end
  end.
Definition mkdir_p (p : path) (F : tree) : tree := match mkdirs [] p F with Some F' => F' | None => F end.
(** mv: into [b] if that is a directory, onto it otherwise. *)
Definition move (a t : path) (F : tree) : tree :=
  map (fun e => match under a (fst e) with Some r => (t ++ r, snd e) | None => e end) F.
Definition mv (a b : path) (F : tree) : tree :=
  let t := if is_dir b F then b ++ [last a bnil] else b in
  match look a F with
  | None => F
  | Some n =>
      if negb (is_dir (removelast t) F) then F
      else match under a t with
      | Some _ => F
      | None =>
          match look t F, n with
          | None, _ => move a t F
          | Some Dir, Dir => match ls t F with [] => move a t (delete t F) | _ => F end
          | Some Dir, _ | Some _, Dir => F
          | Some _, _ => move a t (delete t F)
          end
      end
  end.
(** rctx.symlink: makes the directories above; refuses a name that is taken. *)
Definition symlink (label : bstr) (dest : path) (F : tree) : res tree :=
  match mkdirs [] (removelast dest) F with
  | Some F' => match look dest F' with None => Ok ((dest, Link label) :: F') | Some _ => Err RuntimeError end
  | None => Err RuntimeError
  end.
Fixpoint symlinks (l : list (bstr * path)) (F : tree) : res tree :=
  match l with [] => Ok F | (label, dest) :: l => F' <- symlink label dest F;; symlinks l F' end.
(** python3 script --template t --build out: the script and its template must be there, and the
    output must not be a directory. *)
Definition generate (script template out : path) (rules : tree -> list rule) (F : tree) : res tree :=
  match look script F, look template F, look out F with
  | None, _, _ | Some Dir, _, _ | _, None, _ | _, Some Dir, _ | _, _, Some Dir => Err RuntimeError
  | _, _, _ => if is_dir (removelast out) F then Ok (put out (Build (rules F)) F) else Err RuntimeError
  end.

(** ** gen_repo.bzl *)
(** gen_repo.bzl:10-33: the labels resolved before the download. *)
Definition prefetched : list bstr := [
  "gen_repo/libxc:so_naming.patch"; "gen_repo/libxc:windows.patch"; "gen_repo/libxc:wrap.py"; "gen_repo/libxc:wrap.cc.jinja";
  "gen_repo/libxc:register.cc"; "gen_repo/libxc:register.h"; "gen_repo/libxc:libxc.cc"; "gen_repo/libxc:gen_build.py";
  "gen_repo/libxc:build.jinja"; "gen_repo/impl:__init__.py"; "gen_repo/impl:gen_build.py"; "gen_repo/impl:gen_maple.py";
  "gen_repo/impl:maple_template.jinja"; "gen_repo/impl:gen_py.py"; "gen_repo/impl:utils.py"; "gen_repo/impl:python_template.jinja";
  "gen_repo/impl:build.jinja"; "gen_repo:build.jinja"; "gen_repo:__init__.py"; "gen_repo:gen_py.py"; "gen_repo:utils.py";
  "gen_repo:python_template.jinja"; "gen_repo:experimental.jinja"; "gen_repo:wheel.BUILD"]%b.
(** gen_repo.bzl:43-47 *)
Definition removed : list bstr := ["xc-info.c"; "xc-sanity.c"; "xc-threshold.c"; "test.c"; "genwiki.c"]%b.
(** "win" in rctx.os.name (gen_repo.bzl:48) *)
Fixpoint contains (sub s : bstr) : bool := bprefix sub s || match s with bnil => false | bcons _ s => contains sub s end.
Definition patch_label (os : bstr) : bstr := if contains "win" os then "gen_repo/libxc:windows.patch"%b else "gen_repo/libxc:so_naming.patch"%b.
(** gen_repo.bzl:56-62, 78-85 and 100-106 *)
Definition libxc_links : list (bstr * path) := [
  ("gen_repo/libxc:wrap.py", ["jax_xc"; "libxc"; "wrap.py"]); ("gen_repo/libxc:wrap.cc.jinja", ["jax_xc"; "libxc"; "wrap.cc.jinja"]);
  ("gen_repo/libxc:register.cc", ["jax_xc"; "libxc"; "src_cc"; "register.cc"]); ("gen_repo/libxc:register.h", ["jax_xc"; "libxc"; "src_cc"; "register.h"]);
  ("gen_repo/libxc:libxc.cc", ["jax_xc"; "libxc"; "src_cc"; "libxc.cc"]); ("gen_repo/libxc:gen_build.py", ["jax_xc"; "libxc"; "gen_build.py"]);
  ("gen_repo/libxc:build.jinja", ["jax_xc"; "libxc"; "build.jinja"])]%b.
Definition impl_links : list (bstr * path) := [
  ("gen_repo/impl:__init__.py", ["jax_xc"; "impl"; "__init__.py"]); ("gen_repo/impl:gen_build.py", ["jax_xc"; "impl"; "gen_build.py"]);
  ("gen_repo/impl:gen_maple.py", ["jax_xc"; "impl"; "gen_maple.py"]); ("gen_repo/impl:maple_template.jinja", ["jax_xc"; "impl"; "maple_template.jinja"]);
  ("gen_repo/impl:gen_py.py", ["jax_xc"; "impl"; "gen_py.py"]); ("gen_repo/impl:utils.py", ["jax_xc"; "impl"; "utils.py"]);
  ("gen_repo/impl:python_template.jinja", ["jax_xc"; "impl"; "python_template.jinja"]); ("gen_repo/impl:build.jinja", ["jax_xc"; "impl"; "build.jinja"])]%b.
Definition top_links : list (bstr * path) := [
  ("gen_repo:build.jinja", ["jax_xc"; "BUILD"]); ("gen_repo:__init__.py", ["jax_xc"; "__init__.py"]); ("gen_repo:gen_py.py", ["jax_xc"; "gen_py.py"]);
  ("gen_repo:utils.py", ["jax_xc"; "utils.py"]); ("gen_repo:python_template.jinja", ["jax_xc"; "python_template.jinja"]);
  ("gen_repo:experimental.jinja", ["jax_xc"; "experimental.jinja"]); ("gen_repo:wheel.BUILD", ["BUILD"])]%b.

Section Rule.
(** The name of the system, whether GITHUB_ACTIONS is set (impl/gen_build.py:28), what the patches do. *)
Variables (os : bstr) (prebuilt : bool) (edits : bstr -> bstr -> option bstr).
(** gen_repo.bzl:41-51 *)
Definition prepare (A : tree) : res tree :=
  patch ["pylibxc"; "core.py"]%b (edits (patch_label os))
    (fold_left (fun F x => delete ["src"%b; x] F) removed (put ["WORKSPACE"]%b (File bnil) A)).
(** gen_repo.bzl:52-55 *)
Definition unpack_libxc (F : tree) : tree :=
  mv ["xc_version.h.in"]%b ["jax_xc"; "libxc"]%b (mv ["src"]%b ["jax_xc"; "libxc"]%b (mv ["pylibxc"]%b ["jax_xc"; "libxc"]%b (mkdir ["jax_xc"]%b F))).
(** gen_repo.bzl:63-73 *)
Definition build_libxc : tree -> res tree :=
  generate ["jax_xc"; "libxc"; "gen_build.py"]%b ["jax_xc"; "libxc"; "build.jinja"]%b ["jax_xc"; "libxc"; "BUILD"]%b
    (fun F => libxc_build (ls ["jax_xc"; "libxc"; "src"]%b F)).
(** gen_repo.bzl:76-77 *)
Definition unpack_impl (F : tree) : tree := mv ["maple"]%b ["jax_xc"; "impl"]%b (mkdir_p ["jax_xc"; "impl"]%b F).
(** gen_repo.bzl:86-96 *)
Definition build_impl : tree -> res tree :=
  generate ["jax_xc"; "impl"; "gen_build.py"]%b ["jax_xc"; "impl"; "build.jinja"]%b ["jax_xc"; "impl"; "BUILD"]%b
    (fun F => impl_build prebuilt (fun folder => ls ["jax_xc"; "impl"; "maple"; folder]%b F)).
(** gen_repo.bzl:9-106 on the extracted archive *)
Definition gen_repo (A : tree) : res tree :=
  F <- prepare A;;
  F <- symlinks libxc_links (unpack_libxc F);;
  F <- build_libxc F;;
  F <- symlinks impl_links (unpack_impl F);;
  F <- build_impl F;;
  symlinks top_links F.
End Rule.

(** ** python.bzl *)
(** What the scripts ask the interpreter: platform.python_implementation(), python_version_tuple() and
    sys.abiflags, which some platforms do not have. *)
Record interpreter := Interpreter { i_implementation : bstr; i_version : list bstr; i_abiflags : option bstr }.
(** PYTHON_BIN_PATH, rctx.which, and the interpreter at a path, if there is one. *)
Record host := Host { h_bin : option bstr; h_which : bstr -> option bstr; h_run : bstr -> option interpreter }.
(** The standard output of the scripts, python.bzl:36-43 and 46-55: a script that raises prints nothing. *)
Definition newline : bstr := bcons "010"%byte bnil.
Definition tag_script (i : option interpreter) : bstr :=
  match i with
  | Some i => if beqb (i_implementation i) "CPython" then match i_version i with a :: b :: _ => "cp" +++ a +++ b +++ newline | _ => bnil end else bnil
  | None => bnil
  end%b.
Definition abi_script (i : option interpreter) : bstr :=
  match i with
  | Some i =>
      if beqb (i_implementation i) "CPython" then
        match i_version i, i_abiflags i with a :: b :: _, Some f => "cp" +++ a +++ b +++ f +++ newline | _, _ => bnil end
      else bnil
  | None => bnil
  end%b.
(** .splitlines()[0], None if there is no line *)
Fixpoint until_eol (s : bstr) : bstr :=
  match s with bnil => bnil | bcons c s => if Byte.eqb c "010" || Byte.eqb c "013" then bnil else bcons c (until_eol s) end.
Definition first_line (s : bstr) : option bstr := match s with bnil => None | _ => Some (until_eol s) end.
(** python.bzl:20-33 *)
Definition get_python_bin (version : bstr) (h : host) : res bstr :=
  if negb (beqb version "2") && negb (beqb version "3") then Err RuntimeError else
  match h_bin h with
  | Some b => Ok b
  | None => match h_which h ("python" +++ version)%b with Some b => Ok b | None => Err RuntimeError end
  end.
(** python.bzl:35-44 *)
Definition get_python_tag (h : host) (bin : bstr) : res bstr :=
  match first_line (tag_script (h_run h bin)) with Some l => Ok l | None => Err RuntimeError end.
(** python.bzl:46-61 *)
Definition get_abi_tag (h : host) (bin : bstr) : res bstr :=
  match first_line (abi_script (h_run h bin)) with Some l => Ok l | None => get_python_tag h bin end.
(** python.bzl:6-12 *)
Definition abi_bzl (python_tag abi_tag : bstr) : bstr := "def python_tag():
    return """ +++ python_tag +++ """

def abi_tag():
    return """ +++ abi_tag +++ """
".
(** python.bzl:63-74: the files written. *)
Definition declare_python_abi (version : bstr) (h : host) : res (list (bstr * bstr)) :=
  bin <- get_python_bin version h;;
  python_tag <- get_python_tag h bin;;
  abi_tag <- get_abi_tag h bin;;
  Ok [("BUILD"%b, bnil); ("abi.bzl"%b, abi_bzl python_tag abi_tag)].

(** ** gen_repo/gen_build.py:19-29 *)
Definition top_names_and_maple_files (ls : bstr -> list bstr) : list (bstr * bstr) :=
  flat_map (fun folder => map (fun src => (until_dot src, folder +++ "/" +++ src)) (filter (ends_with ".mpl") (ls folder)))%b folders.
