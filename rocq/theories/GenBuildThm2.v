(** The prebuilt directories serve every build of the shipped functionals. *)
From Coq Require Import Strings.Byte List Bool Lia PeanoNat.
From Verif Require Import Bytes Src Impl Records GenBuild GenBuildThm Prebuilt.
Import ListNotations.

(** impl/prebuilt/pol/BUILD and unpol/BUILD: exports_files(glob(["*.py"])) *)
Definition exported (dir : list bstr) : list bstr := filter (glob_ext ".py") dir.
Lemma prebuilt_pol_complete : exported dir_pol = map (fun s => src_name s +++ ".py"%b) all_sources.
Proof. vm_compute. reflexivity. Qed.
Lemma prebuilt_unpol_complete : exported dir_unpol = map (fun s => src_name s +++ ".py"%b) all_sources.
Proof. vm_compute. reflexivity. Qed.
Fixpoint nodupb (l : list bstr) : bool := match l with [] => true | x :: l => negb (existsb (beqb x) l) && nodupb l end.
Lemma nodupb_ok l : nodupb l = true -> NoDup l.
Proof.
  induction l as [|x l IH]; intros H; [constructor|]. cbn in H. apply andb_prop in H. destruct H as (H & H'). constructor; [|exact (IH H')].
  intros C. apply negb_true_iff in H. assert (existsb (beqb x) l = true); [|congruence]. apply existsb_exists. exists x. split; [exact C|apply beqb_refl].
Qed.
Lemma shipped_names_distinct : NoDup (map src_name all_sources).
Proof. apply nodupb_ok. vm_compute. reflexivity. Qed.
Lemma shipped_names_plain : Forall (fun n => plain n = true) (map src_name all_sources).
Proof. apply Forall_forall. intros n H. assert (E : forallb plain (map src_name all_sources) = true) by (vm_compute; reflexivity). rewrite forallb_forall in E. apply E, H. Qed.
Lemma shipped_no_maple : forall x y, In x (map src_name all_sources) -> In y (map src_name all_sources) -> ~ maple_of x y.
Proof.
  intros x y Hx Hy M. assert (E : forallb (fun n => negb (ends_with "_maple" n)) (map src_name all_sources) = true) by (vm_compute; reflexivity).
  rewrite forallb_forall in E. specialize (E y Hy). rewrite M in E. rewrite ends_with_app in E. discriminate.
Qed.
(** The label of a prebuilt file. *)
Definition prebuilt_label (dir f : bstr) : bstr := "@build_jax_xc//gen_repo/impl/prebuilt/"%b +++ dir +++ ":"%b +++ f.
Theorem prebuilt_sources ls n : In n (module_names ls) -> In n (map src_name all_sources) ->
  exists r q, In r (impl_build true ls) /\ In q (impl_build true ls) /\
    r_outs r = ["pol/" +++ n +++ ".py"]%b /\ r_outs q = ["unpol/" +++ n +++ ".py"]%b /\
    (exists f, In f (exported dir_pol) /\ r_srcs r = [prebuilt_label "pol" f]) /\
    (exists f, In f (exported dir_unpol) /\ r_srcs q = [prebuilt_label "unpol" f]).
Proof.
  intros Hn Hs. rewrite prebuilt_pol_complete, prebuilt_unpol_complete. apply in_map_iff in Hs. destruct Hs as (src & <- & Hs).
  apply in_map_iff in Hn. destruct Hn as (nm & E & Hn).
  assert (A : forall r, In r (copy_rules (src_name src)) -> In r (impl_build true ls)).
  { intros r Hr. unfold impl_build. apply in_or_app. right. apply in_flat_map. exists nm. split; [exact Hn|]. unfold loop_rules. rewrite E.
    apply in_or_app. left. exact Hr. }
  exists (nth 0 (copy_rules (src_name src)) (module_rule bnil)), (nth 1 (copy_rules (src_name src)) (module_rule bnil)).
  split; [apply A; left; reflexivity|]. split; [apply A; right; left; reflexivity|]. split; [reflexivity|]. split; [reflexivity|].
  split; (exists (src_name src +++ ".py"%b); split; [apply in_map_iff; exists src; auto|reflexivity]).
Qed.
(** A name cut at a dot has no slash if the entry has none. *)
Lemma plain_until_dot s : plain s = true -> plain (until_dot s) = true.
Proof. induction s as [|b s IH]; [reflexivity|]. cbn. intros H. apply andb_prop in H. destruct H as (A & B). destruct (Byte.eqb b "."); [reflexivity|]. cbn. rewrite A, (IH B). reflexivity. Qed.
Lemma module_names_plain ls : (forall folder f, In f (ls folder) -> plain f = true) -> Forall (fun n => plain n = true) (module_names ls).
Proof.
  intros H. apply Forall_forall. intros n Hn. apply in_map_iff in Hn. destruct Hn as ((m, f) & <- & Hn). unfold names_and_maple_files in Hn.
  apply in_flat_map in Hn. destruct Hn as (folder & _ & Hn). apply in_map_iff in Hn. destruct Hn as (g & E & Hg). apply filter_In in Hg.
  injection E as <- _. apply plain_until_dot, (H folder), Hg.
Qed.
Theorem one_module prebuilt ls n :
  (forall folder f, In f (ls folder) -> plain f = true) -> NoDup (module_names ls) -> In n (module_names ls) ->
  NoDup (flat_map r_outs (impl_build prebuilt ls)) /\
  In (module_rule n) (impl_build prebuilt ls) /\
  (forall r, In r (impl_build prebuilt ls) -> In (n +++ ".py"%b) (r_outs r) -> r = module_rule n) /\
  (forall s, In s (r_srcs (module_rule n)) -> exists r, In r (impl_build prebuilt ls) /\ r_outs r = [s]).
Proof.
  intros P N H. pose proof (module_names_plain ls P) as P'. destruct (module_target prebuilt ls n P' N H) as (A & B).
  split; [apply impl_outputs_distinct; assumption|]. split; [exact A|]. split; [exact B|]. intros s Hs. apply (module_sources prebuilt ls n s H Hs).
Qed.
Theorem maple_files_exact ls n f :
  (forall folder g, In g (ls folder) -> ends_with ".mpl" g = true ->
     exists m, g = m +++ ".mpl"%b /\ m <> bnil /\ forall a b, m <> a +++ bcons "."%byte b) ->
  (In (n, f) (names_and_maple_files ls) <->
   exists folder, In folder folders /\ In (n +++ ".mpl"%b) (ls folder) /\ f = folder +++ bcons "/"%byte (n +++ ".mpl"%b)).
Proof.
  intros H. split.
  - apply maple_file_exists. intros folder g Hg G. destruct (H folder g Hg G) as (m & E & _ & D). exists m. auto.
  - intros (folder & Hf & Hn & ->). destruct (H folder _ Hn (ends_with_app _ _)) as (m & E & N & D). apply bapp_inj_r in E. subst m.
    apply maple_file_listed; assumption.
Qed.
Theorem prebuilt_complete :
  exported dir_pol = map (fun s => src_name s +++ ".py"%b) all_sources /\
  exported dir_unpol = map (fun s => src_name s +++ ".py"%b) all_sources /\
  forall ls n, In n (module_names ls) -> In n (map src_name all_sources) ->
    exists r q, In r (impl_build true ls) /\ In q (impl_build true ls) /\
      r_outs r = ["pol/" +++ n +++ ".py"]%b /\ r_outs q = ["unpol/" +++ n +++ ".py"]%b /\
      (exists f, In f (exported dir_pol) /\ r_srcs r = [prebuilt_label "pol" f]) /\
      (exists f, In f (exported dir_unpol) /\ r_srcs q = [prebuilt_label "unpol" f]).
Proof. exact (conj prebuilt_pol_complete (conj prebuilt_unpol_complete prebuilt_sources)). Qed.
Theorem libxc_build_ok src :
  (forall f, In f (c_file_basenames src) <->
     In f src /\ (exists n, f = n +++ ".c"%b) /\ bprefix "." f = false /\ bprefix "funcs_" f = false /\ bprefix "work_" f = false) /\
  (forall f, In f (c_file_basenames src) ->
     In (Rule (f +++ "c.obj") ["src_cc/" +++ f +++ "c"] [])%b (libxc_build src) /\
     In (Rule ("gen_" +++ f +++ "c") ["src/" +++ f] ["src_cc/" +++ f +++ "c"])%b (libxc_build src) /\
     In (bcons ":"%byte (f +++ "c.obj"%b)) (extension_deps (c_file_basenames src))) /\
  (NoDup src -> NoDup (map r_name (libxc_build src))).
Proof. exact (conj (libxc_wrapped src) (conj (libxc_linked src) (libxc_rules_distinct src))). Qed.
(** Counterexamples. *)
Definition clash_ls (folder : bstr) : list bstr := if beqb folder "lda_exc" then ["lda_x.mpl"; "lda_x_maple.mpl"]%b else [].
Theorem rule_names_clash : ~ forall ls, NoDup (module_names ls) -> NoDup (map r_name (impl_build false ls)).
Proof.
  intros H. specialize (H clash_ls). assert (N : NoDup (module_names clash_ls)) by (apply nodupb_ok; reflexivity).
  apply H, impl_rules_distinct in N. destruct N as (_ & N). apply (N eq_refl "lda_x"%b "lda_x_maple"%b); [left; reflexivity|right; left; reflexivity|reflexivity].
Qed.
Definition dotted_ls (folder : bstr) : list bstr := if beqb folder "lda_exc" then ["lda_x.old.mpl"]%b else [].
Theorem dotted_name :
  ~ forall ls n f, In (n, f) (names_and_maple_files ls) ->
    exists folder, In folder folders /\ In (n +++ ".mpl"%b) (ls folder) /\ f = folder +++ bcons "/"%byte (n +++ ".mpl"%b).
Proof.
  intros H. destruct (H dotted_ls "lda_x"%b "lda_exc/lda_x.mpl"%b) as (folder & _ & B & _); [left; reflexivity|].
  unfold dotted_ls in B. destruct (beqb folder "lda_exc"); [destruct B as [B|[]]; discriminate B|destruct B].
Qed.
