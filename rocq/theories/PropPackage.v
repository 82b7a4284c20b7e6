(** C42: names lead where they should in the installed package. *)
From Coq Require Import Strings.Byte List Bool.
From Verif Require Import Bytes Src Impl RecordsThm GenBuild GenBuildThm Package PackageThm PackageShipped.
Import ListNotations.

(** Every module the build makes from a formula with a family name is what getattr(impl, name) returns, and the
    files its import needs are installed; every submodule found that way is the file of that name. *)
Theorem C42_formulas_found ls n : In n (module_names ls) ->
  (exists t, In t ["lda"; "gga"; "mgga"]%b /\ has_family n t) -> ends_with "__init__.py" (n +++ ".py"%b) = false ->
  getattr (impl_package (impl_files ls)) n = Ok (Module (n +++ ".py"%b)) /\
  (forall f, In f [n +++ ".py"; "utils.py"; "__init__.py"]%b -> In f (impl_files ls)).
Proof. exact (built_formula_found ls n). Qed.
Print Assumptions C42_formulas_found.
Theorem C42_own_file files n f : In "utils.py"%b files -> getattr (impl_package files) n = Ok (Module f) ->
  f = n +++ ".py"%b /\ In f files /\ ~ In n ["__all__"; "modules"; "glob"; "join"; "isfile"; "basename"; "dirname"]%b.
Proof. exact (formula_only files n f). Qed.
Print Assumptions C42_own_file.
(** All shipped modules are found. *)
Theorem C42_shipped_found files : (forall s, In s all_sources -> In (src_name s +++ ".py"%b) files) ->
  forall s, In s all_sources -> getattr (impl_package files) (src_name s) = Ok (Module (src_name s +++ ".py"%b)).
Proof. exact (shipped_found files). Qed.
Print Assumptions C42_shipped_found.
Definition listing (folder : bstr) : list bstr := if beqb folder "gga_exc" then ["gga_x_pbe.mpl"; "gga_x_b88.mpl"]%b else [].
Example C42_sample : In "gga_x_pbe"%b (module_names listing) /\ has_family "gga_x_pbe" "gga" /\
  getattr (impl_package (impl_files listing)) "gga_x_pbe" = Ok (Module "gga_x_pbe.py") /\ getattr (impl_package (impl_files listing)) "gga_x_pw91" = Err AttributeError.
Proof. split; [left; reflexivity|]. split; [exists "_x_pbe"%b; left; reflexivity|]. split; vm_compute; reflexivity. Qed.
Example C42_sample_shipped : let files := map (fun s => src_name s +++ ".py"%b) all_sources in
  (forall s, In s all_sources -> In (src_name s +++ ".py"%b) files) /\ length all_sources = 261%nat.
Proof. cbv zeta. split; [intros s H; apply (in_map (fun s => src_name s +++ ".py"%b)), H|vm_compute; reflexivity]. Qed.

(** Not every file is found: the names the package uses for itself hide a module. *)
Theorem C42_any_name_refuted : exists files n, In (n +++ ".py"%b) files /\ getattr (impl_package files) n = Ok (Helper n).
Proof. exists ["glob.py"]%b, "glob"%b. split; [left; reflexivity|vm_compute; reflexivity]. Qed.
Print Assumptions C42_any_name_refuted.

(** Constructors: with family names, each is found in functionals.py and in the package, none hides a name that
    the generated code uses, and jax_xc.experimental is the module. *)
Theorem C42_constructors_found names : (forall n, In n names -> exists t, In t ["lda"; "gga"; "mgga"]%b /\ has_family n t) ->
  (forall n, In n names -> getattr (functionals_module names) n = Ok (Constructor n) /\ getattr (package names) n = Ok (Constructor n)) /\
  (forall h, In h ["invoke"; "get_p"; "impl"; "Optional"; "Callable"]%b -> getattr (functionals_module names) h = getattr functionals_helpers h) /\
  getattr (package names) "experimental" = Ok (Module "experimental.py").
Proof. exact (constructors_found names). Qed.
Print Assumptions C42_constructors_found.
Example C42_sample_constructors : getattr (package ["lda_x"; "hyb_gga_xc_b3lyp"]%b) "hyb_gga_xc_b3lyp" = Ok (Constructor "hyb_gga_xc_b3lyp") /\
  getattr (package ["lda_x"]%b) "gga_x_pbe" = Err AttributeError /\ getattr (functionals_module ["lda_x"]%b) "impl" = Ok (Module "impl").
Proof. repeat split; vm_compute; reflexivity. Qed.
(** A functional called like a helper would replace it for all others. *)
Example C42_sample_helper : getattr (functionals_module ["invoke"]%b) "invoke" = Ok (Constructor "invoke").
Proof. reflexivity. Qed.
