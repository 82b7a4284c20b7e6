(** C40: the repository rule puts every part of the archive where the build files look for it.
    C41: the tags of the wheel.  C27: the two generators of build files read the same listing. *)
From Coq Require Import Strings.Byte List Bool.
From Verif Require Import Bytes Impl Records GenBuild Layout LayoutThm.
Import ListNotations.

(** C40: on an archive with the parts of a libxc release ([releasable]), the rule succeeds; the files of
    the package are linked into place ([installed]); the sources are those of the archive without the
    five programs; formulas, interface and version header are moved, the rest is left alone. *)
Theorem C40_repository_layout os prebuilt edits A : releasable os edits A -> exists F,
  gen_repo os prebuilt edits A = Ok F /\
  (forall p l, In (p, l) installed -> look p F = Some (Link l)) /\
  (forall x r, In x ["xc-info.c"; "xc-sanity.c"; "xc-threshold.c"; "test.c"; "genwiki.c"]%b -> look ("jax_xc" :: "libxc" :: "src" :: x :: r)%b F = None) /\
  (forall x r, ~ In x ["xc-info.c"; "xc-sanity.c"; "xc-threshold.c"; "test.c"; "genwiki.c"]%b ->
     look ("jax_xc" :: "libxc" :: "src" :: x :: r)%b F = look ("src"%b :: x :: r) A) /\
  (forall r, look ("jax_xc" :: "impl" :: "maple" :: r)%b F = look ("maple"%b :: r) A) /\
  look ["jax_xc"; "libxc"; "xc_version.h.in"]%b F = look ["xc_version.h.in"]%b A /\
  (forall c c', look ["pylibxc"; "core.py"]%b A = Some (File c) -> edits (patch_label os) c = Some c' -> look ["jax_xc"; "libxc"; "core.py"]%b F = Some (File c')) /\
  (forall x r, ~ In x ["BUILD"; "build.jinja"; "gen_build.py"; "src_cc"; "wrap.cc.jinja"; "wrap.py"; "src"; "xc_version.h.in"; "core.py"]%b ->
     look ("jax_xc" :: "libxc" :: x :: r)%b F = look ("pylibxc"%b :: x :: r) A) /\
  (forall x r, In x ["src"; "pylibxc"; "maple"; "xc_version.h.in"]%b -> look (x :: r) F = None) /\
  (forall x r, ~ In x ["jax_xc"; "BUILD"; "WORKSPACE"; "src"; "pylibxc"; "maple"; "xc_version.h.in"]%b -> look (x :: r) F = look (x :: r) A).
Proof. exact (gen_repo_ok os prebuilt edits A). Qed.
Print Assumptions C40_repository_layout.

(** C40: the build files are made from the tree they are put into: a C file is wrapped exactly if it is
    there, and every formula that is there has its module. *)
Theorem C40_build_files os prebuilt edits A : releasable os edits A -> exists F rules mods,
  gen_repo os prebuilt edits A = Ok F /\
  look ["jax_xc"; "libxc"; "BUILD"]%b F = Some (Build rules) /\ look ["jax_xc"; "impl"; "BUILD"]%b F = Some (Build mods) /\
  (forall f, In (Rule ("gen_" +++ f +++ "c")%b ["src/" +++ f]%b ["src_cc/" +++ f +++ "c"]%b) rules <->
     look ["jax_xc"; "libxc"; "src"; f]%b F <> None /\ (exists n, f = n +++ ".c"%b) /\ bprefix "." f = false /\ bprefix "funcs_" f = false /\ bprefix "work_" f = false) /\
  (forall folder n, In folder ["lda_exc"; "gga_exc"; "mgga_exc"; "lda_vxc"; "gga_vxc"; "mgga_vxc"]%b -> n <> bnil -> (forall a b, n <> a +++ bcons "."%byte b) ->
     look ["jax_xc"; "impl"; "maple"; folder; n +++ ".mpl"]%b F <> None ->
     In (Rule (n +++ "_gen_py") ["pol/" +++ n +++ ".py"; "unpol/" +++ n +++ ".py"] [n +++ ".py"])%b mods).
Proof. exact (gen_repo_builds os prebuilt edits A). Qed.
Print Assumptions C40_build_files.

(** C40: every label the rule uses is resolved before the download, and the patch is the one of the system. *)
Theorem C40_labels os : (forall l p, In (l, p) (libxc_links ++ impl_links ++ top_links) -> In l prefetched) /\ In (patch_label os) prefetched.
Proof. exact (labels_prefetched os). Qed.
Print Assumptions C40_labels.
Theorem C40_patch os : ((exists a b, os = a +++ "win"%b +++ b) -> patch_label os = "gen_repo/libxc:windows.patch"%b) /\
  (~ (exists a b, os = a +++ "win"%b +++ b) -> patch_label os = "gen_repo/libxc:so_naming.patch"%b).
Proof. exact (patch_choice os). Qed.
Print Assumptions C40_patch.

(** [release true] is a small archive with the parts of a release; [named] replaces a file by the name of the patch. *)
Example C40_sample_hypothesis : releasable "linux" named (release true).
Proof.
  split; try reflexivity; try discriminate.
  - apply archive_check; vm_compute; reflexivity.
  - eexists. vm_compute. reflexivity.
  - eexists. eexists. split; vm_compute; reflexivity.
  - split; vm_compute; reflexivity.
  - intros x H. cbn [In] in H. repeat (destruct H as [<-|H]; [vm_compute; reflexivity|]). contradiction.
Qed.
Example C40_sample : exists F, gen_repo "linux" true named (release true) = Ok F /\
  look ["jax_xc"; "libxc"; "src"; "maple2c"; "lda_x.c"]%b F = Some (File "d") /\ look ["jax_xc"; "libxc"; "core.py"]%b F = Some (File "gen_repo/libxc:so_naming.patch") /\
  look ["jax_xc"; "impl"; "maple"; "lda_exc"; "lda_x.mpl"]%b F = Some (File "h") /\ ls ["jax_xc"; "libxc"; "src"]%b F = ["lda_x.c"; "work_lda.c"; "maple2c"]%b.
Proof. eexists. split; [vm_compute; reflexivity|]. repeat split. Qed.
(** A name that is taken ends the rule. *)
Example C40_sample_taken : gen_repo "linux" true named ((["BUILD"]%b, File bnil) :: release true) = Err RuntimeError.
Proof. vm_compute. reflexivity. Qed.

(** C40: success does not say that the parts were there.  The return code of mv is not looked at: without
    the folder of the formulas the rule succeeds, and the package has no module. *)
Theorem C40_success_complete_refuted : exists A F mods, look ["maple"]%b A = None /\
  gen_repo "linux" false named A = Ok F /\ look ["jax_xc"; "impl"; "BUILD"]%b F = Some (Build mods) /\
  forall n, ~ In (Rule (n +++ "_gen_py") ["pol/" +++ n +++ ".py"; "unpol/" +++ n +++ ".py"] [n +++ ".py"])%b mods.
Proof. exact no_formulas. Qed.
Print Assumptions C40_success_complete_refuted.

(** C41: with a CPython interpreter the files declare the tag cp<major><minor>, and the ABI tag with the flags
    of the interpreter if it has any. *)
Theorem C41_wheel_tags version h bin i major minor rest : In version ["2"; "3"]%b ->
  (h_bin h = Some bin \/ h_bin h = None /\ h_which h ("python" +++ version)%b = Some bin) ->
  h_run h bin = Some i -> i_implementation i = "CPython"%b -> i_version i = major :: minor :: rest -> one_line major -> one_line minor ->
  (forall f, i_abiflags i = Some f -> one_line f) ->
  let tag := ("cp" +++ major +++ minor)%b in
  declare_python_abi version h = Ok [("BUILD"%b, bnil); ("abi.bzl"%b, abi_bzl tag (tag +++ match i_abiflags i with Some f => f | None => bnil end))].
Proof. exact (abi_declared version h bin i major minor rest). Qed.
Print Assumptions C41_wheel_tags.
(** C41: nothing else is tagged: the rule fails without an interpreter, and with one that is not CPython. *)
Theorem C41_only_cpython version h files : declare_python_abi version h = Ok files -> In version ["2"; "3"]%b /\
  exists bin i, (h_bin h = Some bin \/ h_bin h = None /\ h_which h ("python" +++ version)%b = Some bin) /\ h_run h bin = Some i /\ i_implementation i = "CPython"%b.
Proof. exact (abi_needs version h files). Qed.
Print Assumptions C41_only_cpython.
Definition box (flags : option bstr) : host :=
  Host None (fun n => if beqb n "python3" then Some "/usr/bin/python3"%b else None)
    (fun b => if beqb b "/usr/bin/python3" then Some (Interpreter "CPython" ["3"; "7"; "12"] flags) else Some (Interpreter "PyPy" ["3"; "9"; "1"] None))%b.
Example C41_sample : declare_python_abi "3" (box (Some "m"%b)) = Ok [("BUILD", ""); ("abi.bzl", "def python_tag():
    return ""cp37""

def abi_tag():
    return ""cp37m""
")]%b.
Proof. vm_compute. reflexivity. Qed.
Example C41_sample_without_flags : declare_python_abi "3" (box None) = Ok [("BUILD", ""); ("abi.bzl", abi_bzl "cp37" "cp37")]%b.
Proof. vm_compute. reflexivity. Qed.
Example C41_sample_other : declare_python_abi "3" (Host (Some "/opt/pypy/bin/pypy") (h_which (box None)) (h_run (box None)))%b = Err RuntimeError.
Proof. vm_compute. reflexivity. Qed.

(** C27: the generator that no rule runs finds the same modules, if no name has a second dot and none is hidden. *)
Theorem C27_top_generator ls :
  (forall folder g, In folder ["lda_exc"; "gga_exc"; "mgga_exc"; "lda_vxc"; "gga_vxc"; "mgga_vxc"]%b -> In g (ls folder) -> ends_with ".mpl" g = true ->
     exists m, g = m +++ ".mpl"%b /\ m <> bnil /\ forall a b, m <> a +++ bcons "."%byte b) ->
  top_names_and_maple_files ls = names_and_maple_files ls.
Proof. exact (top_listing_agrees ls). Qed.
Print Assumptions C27_top_generator.
Example C27_sample_top : top_names_and_maple_files (fun folder => if beqb folder "lda_exc" then ["lda_x.mpl"; "README"] else [])%b = [("lda_x", "lda_exc/lda_x.mpl")]%b.
Proof. vm_compute. reflexivity. Qed.
(** Without the hypothesis they differ: a hidden file, a name with two dots. *)
Example C27_sample_top_differs : let ls := fun folder => if beqb folder "lda_exc" then [".a.mpl"; "b.c.mpl"]%b else [] in
  top_names_and_maple_files ls = [("", "lda_exc/.a.mpl"); ("b", "lda_exc/b.c.mpl")]%b /\ names_and_maple_files ls = [("b", "lda_exc/b.mpl")]%b.
Proof. vm_compute. split; reflexivity. Qed.
