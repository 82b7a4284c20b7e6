(** C27, C28, C29: the generated build files, the Maple program around a kernel, the helpers of
    the formulas. *)
From Coq Require Import Reals Lra List Bool Strings.Byte ZArith.
From Verif Require Import Bytes Syntax Src Semantics Impl Records Helpers MapleTemplate GenBuild GenBuildThm GenBuildThm2 Prebuilt.
Import ListNotations.

(** ** C27 *)
(** Rule names are distinct exactly when base names are and, unless the prebuilt formulas are
    used, no base name is another one followed by _maple. *)
Theorem C27_rule_names_partial prebuilt ls :
  NoDup (map r_name (impl_build prebuilt ls)) <->
  NoDup (module_names ls) /\
  (prebuilt = false -> forall x y, In x (module_names ls) -> In y (module_names ls) -> y <> x +++ "_maple"%b).
Proof. exact (impl_rules_distinct prebuilt ls). Qed.
Print Assumptions C27_rule_names_partial.
(** Distinct base names alone are not enough. *)
Theorem C27_rule_names_refuted :
  ~ forall ls, NoDup (module_names ls) -> NoDup (map r_name (impl_build false ls)).
Proof. exact rule_names_clash. Qed.
Print Assumptions C27_rule_names_refuted.
(** One rule writes the module of each Maple file; what it reads is written by rules of the same
    build; all output files are distinct. *)
Theorem C27_one_module_per_file prebuilt ls n :
  (forall folder f, In f (ls folder) -> plain f = true) -> NoDup (module_names ls) -> In n (module_names ls) ->
  NoDup (flat_map r_outs (impl_build prebuilt ls)) /\
  In (module_rule n) (impl_build prebuilt ls) /\
  (forall r, In r (impl_build prebuilt ls) -> In (n +++ ".py"%b) (r_outs r) -> r = module_rule n) /\
  (forall s, In s (r_srcs (module_rule n)) -> exists r, In r (impl_build prebuilt ls) /\ r_outs r = [s]).
Proof. exact (one_module prebuilt ls n). Qed.
Print Assumptions C27_one_module_per_file.
Theorem C27_library_exports prebuilt ls label :
  In label (library_srcs (names_and_maple_files ls)) <->
  label = "__init__.py"%b \/ label = "utils.py"%b \/
  exists r, In r (impl_build prebuilt ls) /\ (exists n, In n (module_names ls) /\ r = module_rule n) /\
            label = bcons ":"%byte (r_name r).
Proof. exact (library_exports prebuilt ls label). Qed.
Print Assumptions C27_library_exports.
(** Each *.mpl entry of the six folders is listed under its own path, and nothing else is, if the
    only dot of an entry starts its extension. *)
Theorem C27_maple_files_partial ls n f :
  (forall folder g, In g (ls folder) -> ends_with ".mpl" g = true ->
     exists m, g = m +++ ".mpl"%b /\ m <> bnil /\ forall a b, m <> a +++ bcons "."%byte b) ->
  (In (n, f) (names_and_maple_files ls) <->
   exists folder, In folder ["lda_exc"; "gga_exc"; "mgga_exc"; "lda_vxc"; "gga_vxc"; "mgga_vxc"]%b /\
     In (n +++ ".mpl"%b) (ls folder) /\ f = folder +++ bcons "/"%byte (n +++ ".mpl"%b)).
Proof. exact (maple_files_exact ls n f). Qed.
Print Assumptions C27_maple_files_partial.
(** An entry with a second dot is read under a name that is not there. *)
Theorem C27_maple_files_refuted :
  ~ forall ls n f, In (n, f) (names_and_maple_files ls) ->
    exists folder, In folder ["lda_exc"; "gga_exc"; "mgga_exc"; "lda_vxc"; "gga_vxc"; "mgga_vxc"]%b /\
     In (n +++ ".mpl"%b) (ls folder) /\ f = folder +++ bcons "/"%byte (n +++ ".mpl"%b).
Proof. exact dotted_name. Qed.
Print Assumptions C27_maple_files_refuted.
(** The prebuilt directories hold both spin variants of every shipped module, and the copy rules
    of the build read them. *)
Theorem C27_prebuilt_complete :
  exported dir_pol = map (fun s => src_name s +++ ".py"%b) all_sources /\
  exported dir_unpol = map (fun s => src_name s +++ ".py"%b) all_sources /\
  forall ls n, In n (module_names ls) -> In n (map src_name all_sources) ->
    exists r q, In r (impl_build true ls) /\ In q (impl_build true ls) /\
      r_outs r = ["pol/" +++ n +++ ".py"]%b /\ r_outs q = ["unpol/" +++ n +++ ".py"]%b /\
      (exists f, In f (exported dir_pol) /\ r_srcs r = [prebuilt_label "pol" f]) /\
      (exists f, In f (exported dir_unpol) /\ r_srcs q = [prebuilt_label "unpol" f]).
Proof. exact prebuilt_complete. Qed.
Print Assumptions C27_prebuilt_complete.
(** The build of the shipped modules meets the condition of [C27_rule_names_partial]. *)
Theorem C27_shipped_names : NoDup (map src_name all_sources) /\
  forall x y, In x (map src_name all_sources) -> In y (map src_name all_sources) -> y <> x +++ "_maple"%b.
Proof. exact (conj shipped_names_distinct shipped_no_maple). Qed.
Print Assumptions C27_shipped_names.
(** libxc: the C files other than funcs_*.c and work_*.c are wrapped and linked, once each. *)
Theorem C27_libxc src :
  (forall f, In f (c_file_basenames src) <->
     In f src /\ (exists n, f = n +++ ".c"%b) /\ bprefix "." f = false /\ bprefix "funcs_" f = false /\ bprefix "work_" f = false) /\
  (forall f, In f (c_file_basenames src) ->
     In (Rule (f +++ "c.obj") ["src_cc/" +++ f +++ "c"] [])%b (libxc_build src) /\
     In (Rule ("gen_" +++ f +++ "c") ["src/" +++ f] ["src_cc/" +++ f +++ "c"])%b (libxc_build src) /\
     In (bcons ":"%byte (f +++ "c.obj"%b)) (extension_deps (c_file_basenames src))) /\
  (NoDup src -> NoDup (map r_name (libxc_build src))).
Proof. exact (libxc_build_ok src). Qed.
Print Assumptions C27_libxc.

Definition sample_ls (folder : bstr) : list bstr :=
  if beqb folder "lda_exc" then ["lda_x.mpl"; "Makefile"]%b else if beqb folder "gga_exc" then ["gga_x_pbe.mpl"; ".gga_x_pbe.mpl"]%b else [].
Example C27_sample :
  module_names sample_ls = ["lda_x"; "gga_x_pbe"]%b /\
  map r_name (impl_build true sample_ls) =
    ["maple_files"; "gen_maple"; "gen_py"; "impl"; "lda_x_pol"; "lda_x_unpol"; "lda_x_gen_py"; "gga_x_pbe_pol"; "gga_x_pbe_unpol"; "gga_x_pbe_gen_py"]%b /\
  names_and_maple_files sample_ls = [("lda_x", "lda_exc/lda_x.mpl"); ("gga_x_pbe", "gga_exc/gga_x_pbe.mpl")]%b /\
  In "lda_x"%b (map src_name all_sources).
Proof. repeat split; try (vm_compute; reflexivity). apply (in_map src_name all_sources f_lda_x). unfold all_sources. repeat (first [left; reflexivity|right]). Qed.
Example C27_sample_distinct : NoDup (module_names sample_ls) /\
  forall x y, In x (module_names sample_ls) -> In y (module_names sample_ls) -> y <> x +++ "_maple"%b.
Proof.
  split; [repeat constructor; cbn; intuition discriminate|].
  intros x y Hx Hy. vm_compute in Hx, Hy. destruct Hx as [<-|[<-|[]]], Hy as [<-|[<-|[]]]; discriminate.
Qed.
Example C27_sample_libxc : c_file_basenames ["lda_x.c"; "funcs_lda.c"; "work_lda.c"; "util.h"; "version.c"]%b = ["lda_x.c"; "version.c"]%b.
Proof. reflexivity. Qed.

(** ** C28 *)
Open Scope R_scope.
(** The closed-shell program is the kernel at the total density, zero polarisation, and reduced
    variables of the total density (per spin scaled by 2^(1/D) and 2^(2/D)). *)
Theorem C28_closed_shell (r_ws : R -> R) (D : R) :
  (forall f n, 0 < n -> lda_unpol r_ws f n = f (r_ws n) 0) /\
  (forall f n s, 0 < n -> 0 <= s ->
     let x := sqrt s / Rpower n (1 + 1 / D) in
     gga_unpol r_ws D f n s = f (r_ws n) 0 x (Rpower 2 (1 / D) * x) (Rpower 2 (1 / D) * x)) /\
  (forall f n s l tau, 0 < n -> 0 <= s ->
     let x := sqrt s / Rpower n (1 + 1 / D) in
     let u := Rpower 2 (2 / D) * (l / Rpower n (1 + 2 / D)) in
     let t := Rpower 2 (2 / D) * (tau / Rpower n (1 + 2 / D)) in
     mgga_unpol r_ws D f n s l tau = f (r_ws n) 0 x (Rpower 2 (1 / D) * x) (Rpower 2 (1 / D) * x) u u t t).
Proof. exact (conj (lda_unpol_eq r_ws) (conj (gga_unpol_eq r_ws D) (mgga_unpol_eq r_ws D))). Qed.
Print Assumptions C28_closed_shell.
Theorem C28_spin_symmetry (r_ws : R -> R) (D : R) :
  (forall f : lda_kernel, (forall rs z, f rs (- z) = f rs z) -> forall a b, lda_pol r_ws f b a = lda_pol r_ws f a b) /\
  (forall f : gga_kernel, (forall rs z t x y, f rs (- z) t y x = f rs z t x y) ->
     forall a b s t u, gga_pol r_ws D f b a u t s = gga_pol r_ws D f a b s t u) /\
  (forall f : mgga_kernel, (forall rs z t x y u v p q, f rs (- z) t y x v u q p = f rs z t x y u v p q) ->
     forall a b s t u l m p q, mgga_pol r_ws D f b a u t s m l q p = mgga_pol r_ws D f a b s t u l m p q).
Proof. exact (template_symmetry r_ws D). Qed.
Print Assumptions C28_spin_symmetry.
(** What the polarised program gives to the kernel: rs and xt of the total density, z the relative
    polarisation, and in the variables of a channel what the closed-shell program gives for the
    density with twice that channel. *)
Theorem C28_channels (r_ws : R -> R) (D : R) r0 r1 s0 s1 s2 l0 l1 tau0 tau1 :
  (forall f, gga_pol r_ws D (fun _ _ _ x _ => f x) r0 r1 s0 s1 s2 = gga_unpol r_ws D (fun _ _ _ x _ => f x) (2 * r0) (4 * s0)) /\
  (forall f, gga_pol r_ws D (fun _ _ _ _ y => f y) r0 r1 s0 s1 s2 = gga_unpol r_ws D (fun _ _ _ _ y => f y) (2 * r1) (4 * s2)) /\
  (forall f, mgga_pol r_ws D (fun _ _ _ x _ u _ t _ => f x u t) r0 r1 s0 s1 s2 l0 l1 tau0 tau1 =
     mgga_unpol r_ws D (fun _ _ _ x _ u _ t _ => f x u t) (2 * r0) (4 * s0) (2 * l0) (2 * tau0)) /\
  (forall f, mgga_pol r_ws D (fun _ _ _ _ y _ v _ w => f y v w) r0 r1 s0 s1 s2 l0 l1 tau0 tau1 =
     mgga_unpol r_ws D (fun _ _ _ _ y _ v _ w => f y v w) (2 * r1) (4 * s2) (2 * l1) (2 * tau1)).
Proof.
  exact (conj (fun f => proj1 (gga_channels r_ws D f r0 r1 s0 s1 s2)) (conj (fun f => proj2 (gga_channels r_ws D f r0 r1 s0 s1 s2))
    (conj (fun f => proj1 (mgga_channels r_ws D f r0 r1 s0 s1 s2 l0 l1 tau0 tau1))
          (fun f => proj2 (mgga_channels r_ws D f r0 r1 s0 s1 s2 l0 l1 tau0 tau1))))).
Qed.
Print Assumptions C28_channels.
Theorem C28_totals (r_ws : R -> R) (D : R) r0 r1 s0 s1 s2 l0 l1 tau0 tau1 :
  (forall f, lda_pol r_ws (fun rs _ => f rs) r0 r1 = lda_unpol r_ws (fun rs _ => f rs) (r0 + r1)) /\
  (forall f, gga_pol r_ws D (fun rs _ t _ _ => f rs t) r0 r1 s0 s1 s2 =
     gga_unpol r_ws D (fun rs _ t _ _ => f rs t) (r0 + r1) (s0 + 2 * s1 + s2)) /\
  (forall f l tau, mgga_pol r_ws D (fun rs _ t _ _ _ _ _ _ => f rs t) r0 r1 s0 s1 s2 l0 l1 tau0 tau1 =
     mgga_unpol r_ws D (fun rs _ t _ _ _ _ _ _ => f rs t) (r0 + r1) (s0 + 2 * s1 + s2) l tau) /\
  (r0 + r1 <> 0 ->
   (r0 + r1) * lda_pol r_ws (fun _ z => z) r0 r1 = r0 - r1 /\
   (r0 + r1) * gga_pol r_ws D (fun _ z _ _ _ => z) r0 r1 s0 s1 s2 = r0 - r1 /\
   (r0 + r1) * mgga_pol r_ws D (fun _ z _ _ _ _ _ _ _ => z) r0 r1 s0 s1 s2 l0 l1 tau0 tau1 = r0 - r1).
Proof.
  exact (conj (fun f => lda_totals r_ws f r0 r1) (conj (fun f => gga_totals r_ws D f r0 r1 s0 s1 s2)
    (conj (fun f => mgga_totals r_ws D f r0 r1 s0 s1 s2 l0 l1 tau0 tau1) (polarisation r_ws D r0 r1 s0 s1 s2 l0 l1 tau0 tau1)))).
Qed.
Print Assumptions C28_totals.
(** In three dimensions the reduced variables do not change when the density is scaled by g:
    n -> g^3 n, sigma -> g^8 sigma, lapl and tau -> g^5 lapl and g^5 tau. *)
Theorem C28_reduced_variables_scale g n s l : 0 < g -> 0 < n -> 0 <= s ->
  sqrt (g ^ 8 * s) / Rpower (g ^ 3 * n) (1 + 1 / 3) = sqrt s / Rpower n (1 + 1 / 3) /\
  (g ^ 5 * l) / Rpower (g ^ 3 * n) (1 + 2 / 3) = l / Rpower n (1 + 2 / 3).
Proof. exact (fun Hg Hn Hs => conj (reduced_grad_scales g n s Hg Hn Hs) (reduced_2_scales g n l Hg Hn)). Qed.
Print Assumptions C28_reduced_variables_scale.
(** The program is called with the argument list of the functional's family. *)
Theorem C28_arguments name pol : gen_maple name pol =
  match gen_maple_type name with
  | Ok ty => Ok (if beqb ty "lda" then (if pol then ["r0"; "r1"] else ["r0"])
                 else if beqb ty "gga" then (if pol then ["r0"; "r1"; "s0"; "s1"; "s2"] else ["r0"; "s0"])
                 else (if pol then ["r0"; "r1"; "s0"; "s1"; "s2"; "l0"; "l1"; "tau0"; "tau1"] else ["r0"; "s0"; "l0"; "tau0"]))%b
  | Err e => Err e
  end.
Proof. exact (gen_maple_args name pol). Qed.
Print Assumptions C28_arguments.

(** A kernel that is symmetric and depends on everything, and an asymmetric one. *)
Definition sample_kernel : gga_kernel := fun rs z t x y => rs + z ^ 2 + t + x * y.
Example C28_sample : (forall rs z t x y, sample_kernel rs (- z) t y x = sample_kernel rs z t x y) /\
  gga_unpol (fun n => / n) 3 sample_kernel 1 1 = / 1 + 0 ^ 2 + 1 / 1 + (Rpower 2 (1 / 3) * (1 / 1)) * (Rpower 2 (1 / 3) * (1 / 1)).
Proof.
  split; [intros; unfold sample_kernel; ring|]. rewrite gga_unpol_eq by lra. unfold sample_kernel, reduced_grad. rewrite sqrt_1.
  replace (Rpower 1 (1 + 1 / 3)) with 1 by (unfold Rpower; rewrite ln_1, Rmult_0_r, exp_0; reflexivity). reflexivity.
Qed.
Example C28_asymmetric : lda_pol (fun n => n) (fun rs z => z) 1 3 <> lda_pol (fun n => n) (fun rs z => z) 3 1.
Proof. unfold lda_pol, zeta. lra. Qed.
(** A kernel of the first channel in one dimension: the second channel does not matter. *)
Example C28_sample_channels :
  gga_pol (fun n => n) 1 (fun _ _ _ x _ => x) 1 5 4 7 9 = 2 /\ gga_unpol (fun n => n) 1 (fun _ _ _ x _ => x) (2 * 1) (4 * 4) = 2.
Proof.
  assert (E : gga_pol (fun n => n) 1 (fun _ _ _ x _ => x) 1 5 4 7 9 = 2).
  { unfold gga_pol, xs0. replace (Rpower 1 (1 + 1 / 1)) with 1 by (unfold Rpower; rewrite ln_1, Rmult_0_r, exp_0; reflexivity).
    replace 4 with (2 * 2) by lra. rewrite sqrt_square; lra. }
  split; [exact E|]. rewrite <- (proj1 (C28_channels (fun n => n) 1 1 5 4 7 9 0 0 0 0) (fun x => x)). exact E.
Qed.
Example C28_sample_arguments : gen_maple "hyb_gga_xc_b97.mpl" false = Ok ["r0"; "s0"]%b /\ gen_maple "other.mpl" true = Err NameError.
Proof. split; reflexivity. Qed.

(** ** C29 *)
(** The selected operand is returned as a float, whatever the other one is. *)
Theorem C29_selects_partial a b c : ~ int_array b -> ~ int_array c ->
  exists v, lax_cond a b c = Ok (JaxFloat v) /\ v = number (if a then b else c).
Proof. exact (lax_cond_selects a b c). Qed.
Print Assumptions C29_selects_partial.
Theorem C29_ignores_other_partial b c c' : ~ int_array b -> ~ int_array c -> ~ int_array c' ->
  lax_cond true b c = lax_cond true b c' /\ lax_cond false c b = lax_cond false c' b.
Proof. exact (lax_cond_ignores b c c'). Qed.
Print Assumptions C29_ignores_other_partial.
(** An integer array is not promoted; next to a float it is rejected. *)
Theorem C29_integer_arrays_refuted : ~ forall a b c, exists v, lax_cond a b c = Ok v /\ number v = number (if a then b else c).
Proof. exact int_arrays_fail. Qed.
Print Assumptions C29_integer_arrays_refuted.
(** A conditional of a formula is evaluated through the helper. *)
Theorem C29_formula_conditional I rho c a b t x y :
  eval I rho c = Some (VB t) -> as_pnum (eval I rho a) = Some x -> as_pnum (eval I rho b) = Some y ->
  exists v, lax_cond t x y = Ok v /\
    eval I rho (ECond c a b) = match number v with Some r => Some (VR r) | None => None end.
Proof. exact (cond_is_lax_cond I rho c a b t x y). Qed.
Print Assumptions C29_formula_conditional.
Theorem C29_Heaviside x : (0 <= x -> Heaviside (Some x) = Some 1) /\ (x < 0 -> Heaviside (Some x) = Some 0) /\
  forall I, fn1_sem I FHeaviside x = Heaviside (Some x).
Proof. exact (conj (proj1 (Heaviside_spec x)) (conj (proj2 (Heaviside_spec x)) (fun I => fheaviside I x))). Qed.
Print Assumptions C29_Heaviside.

Example C29_sample : lax_cond true (PyInt 1) (PyFloat None) = Ok (JaxFloat (Some 1)) /\
  lax_cond false (PyInt 1) (JaxFloat (Some (1 / 2))) = Ok (JaxFloat (Some (1 / 2))) /\ ~ int_array (PyFloat None).
Proof. repeat split. intros (z & H). discriminate H. Qed.
