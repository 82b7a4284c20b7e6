(** The build files written by the generators:
    /repo/gen_repo/impl/gen_build.py:19-36 with impl/build.jinja, and
    /repo/gen_repo/libxc/gen_build.py:19-32 with libxc/build.jinja.

    A directory is the list of its entries, in the order glob returns them.  A build rule is its
    name, its sources and its outputs; commands, tools, visibility and select() are not
    modelled.  Rules whose name does not come from the listing are collected in [fixed_*]. *)
From Coq Require Import Strings.Byte List Bool Lia PeanoNat.
From Verif Require Import Bytes Impl Records.
Import ListNotations.

Record rule := Rule { r_name : bstr; r_srcs : list bstr; r_outs : list bstr }.
Definition ends_with (suf s : bstr) : bool := bprefix (brev suf) (brev s).
(** The pattern "*.ext" of glob does not match entries that start with a dot. *)
Definition glob_ext (ext s : bstr) : bool := negb (bprefix "." s) && ends_with ext s.

(** ** impl *)
Definition folders : list bstr := ["lda_exc"; "gga_exc"; "mgga_exc"; "lda_vxc"; "gga_vxc"; "mgga_vxc"]%b.
(** gen_build.py:20-26; [until_dot] is .split(".")[0] *)
Definition names_and_maple_files (ls : bstr -> list bstr) : list (bstr * bstr) :=
  flat_map (fun folder => map (fun mpl => let name := until_dot mpl in (name, folder +++ "/" +++ name +++ ".mpl"))
                              (filter (glob_ext ".mpl") (ls folder))) folders.

(** build.jinja:22-61; the first two read the Maple file through --include. *)
Definition maple_rules (name maple_file : bstr) : list rule := [
  Rule (name +++ "_maple_pol") [maple_file] ["maple_pol/" +++ name +++ ".mpl"];
  Rule (name +++ "_maple_unpol") [maple_file] ["maple_unpol/" +++ name +++ ".mpl"];
  Rule (name +++ "_pol") ["maple_pol/" +++ name +++ ".mpl"] ["pol/" +++ name +++ ".py"];
  Rule (name +++ "_unpol") ["maple_unpol/" +++ name +++ ".mpl"] ["unpol/" +++ name +++ ".py"]]%b.
(** build.jinja:62-78 *)
Definition copy_rules (name : bstr) : list rule := [
  Rule (name +++ "_pol") ["@build_jax_xc//gen_repo/impl/prebuilt/pol:" +++ name +++ ".py"] ["pol/" +++ name +++ ".py"];
  Rule (name +++ "_unpol") ["@build_jax_xc//gen_repo/impl/prebuilt/unpol:" +++ name +++ ".py"] ["unpol/" +++ name +++ ".py"]]%b.
(** build.jinja:80-92 *)
Definition module_rule (name : bstr) : rule :=
  Rule (name +++ "_gen_py") ["pol/" +++ name +++ ".py"; "unpol/" +++ name +++ ".py"]%b [name +++ ".py"]%b.
(** build.jinja:21-94 *)
Definition loop_rules (prebuilt : bool) (nm : bstr * bstr) : list rule :=
  (if prebuilt then copy_rules (fst nm) else maple_rules (fst nm) (snd nm)) ++ [module_rule (fst nm)].
(** build.jinja:96-106 *)
Definition library_srcs (nms : list (bstr * bstr)) : list bstr :=
  ["__init__.py"; "utils.py"]%b ++ map (fun nm => ":" +++ fst nm +++ "_gen_py")%b nms.
(** build.jinja:3-19 and 96-106 *)
Definition fixed_rules (nms : list (bstr * bstr)) : list rule := [
  Rule "maple_files" ["maple"] []; Rule "gen_maple" ["gen_maple.py"] []; Rule "gen_py" ["gen_py.py"] [];
  Rule "impl" (library_srcs nms) []]%b.
Definition impl_build (prebuilt : bool) (ls : bstr -> list bstr) : list rule :=
  let nms := names_and_maple_files ls in fixed_rules nms ++ flat_map (loop_rules prebuilt) nms.

(** ** libxc *)
(** gen_build.py:20-26 *)
Definition c_file_basenames (src : list bstr) : list bstr :=
  filter (fun f => negb (bprefix "funcs_" f || bprefix "work_" f)) (filter (glob_ext ".c") src).
(** libxc/build.jinja:56-84 *)
Definition wrap_rules (src : bstr) : list rule := [
  Rule ("gen_" +++ src +++ "c") ["src/" +++ src] ["src_cc/" +++ src +++ "c"];
  Rule (src +++ "c.obj") ["src_cc/" +++ src +++ "c"] []]%b.
(** libxc/build.jinja:86-106: what the extension module links. *)
Definition extension_deps (files : list bstr) : list bstr :=
  [":xc_inc"; "@visit_struct"; ":register"]%b ++ map (fun f => ":" +++ f +++ "c.obj")%b files.
(** libxc/build.jinja:4-54 and 108-114 *)
Definition fixed_libxc : list rule := [
  Rule "wrap" ["wrap.py"] []; Rule "gen_xc_version" ["xc_version.h.in"] ["xc_version.h"]; Rule "gen_config" [] ["config.h"];
  Rule "xc_inc" [] []; Rule "register" [] []; Rule "gen_pyd" [":libxc.so"] ["libxc.pyd"]]%b.
Definition libxc_build (src : list bstr) : list rule := fixed_libxc ++ flat_map wrap_rules (c_file_basenames src).

(** ** Lists *)
Lemma NoDup_app_intro {A} (l m : list A) : NoDup l -> NoDup m -> (forall x, In x l -> In x m -> False) -> NoDup (l ++ m).
Proof.
  induction l as [|a l IH]; intros Hl Hm D; [exact Hm|]. inversion Hl; subst. cbn. constructor.
  - rewrite in_app_iff. intros [H|H]; [contradiction|]. eapply D; [left; reflexivity|exact H].
  - apply IH; auto. intros x Hx Hx'. apply (D x); [right|]; assumption.
Qed.
Lemma NoDup_app_elim {A} (l m : list A) : NoDup (l ++ m) -> NoDup l /\ NoDup m /\ (forall x, In x l -> In x m -> False).
Proof.
  induction l as [|a l IH]; intros H; [repeat split; [constructor|exact H|intros x []]|].
  cbn in H. inversion H; subst. destruct (IH H3) as (A1 & A2 & A3). repeat split.
  - constructor; [|exact A1]. intros C. apply H2, in_app_iff. left. exact C.
  - exact A2.
  - intros x [->|Hx] Hm; [apply H2, in_app_iff; right; exact Hm|eapply A3; eassumption].
Qed.
Lemma NoDup_flat_map {A B} (g : A -> list B) l :
  NoDup l -> (forall x, In x l -> NoDup (g x)) -> (forall x y z, In x l -> In y l -> In z (g x) -> In z (g y) -> x = y) ->
  NoDup (flat_map g l).
Proof.
  induction l as [|a l IH]; intros Hl Hg D; [constructor|]. inversion Hl; subst. cbn. apply NoDup_app_intro.
  - apply Hg. left. reflexivity.
  - apply IH; auto; intros; [apply Hg|eapply D]; try right; eauto; right; assumption.
  - intros z Hz Hz'. apply in_flat_map in Hz'. destruct Hz' as (y & Hy & Hz'). assert (a = y) by (eapply D; [left; reflexivity|right; exact Hy|exact Hz|exact Hz']). subst. contradiction.
Qed.
Lemma flat_map_disjoint {A B} (g : A -> list B) l : NoDup (flat_map g l) ->
  forall x y z, In x l -> In y l -> In z (g x) -> In z (g y) -> x = y.
Proof.
  induction l as [|a l IH]; intros H; [intros x y z []|].
  cbn in H. apply NoDup_app_elim in H. destruct H as (_ & H & D). specialize (IH H).
  intros x y z [->|Hx] [->|Hy] Hz Hz'; [reflexivity| | |eauto]; exfalso; eapply D; eauto; apply in_flat_map; eauto.
Qed.
Lemma flat_map_NoDup {A B} (g : A -> list B) l : (forall x, g x <> []) -> NoDup (flat_map g l) -> NoDup l.
Proof.
  intros Hg. induction l as [|a l IH]; intros H; [constructor|].
  cbn in H. apply NoDup_app_elim in H. destruct H as (_ & H & D).
  constructor; [|exact (IH H)]. intros Ha. destruct (g a) as [|b r] eqn:G; [apply (Hg a G)|].
  apply (D b); [left; reflexivity|]. apply in_flat_map. exists a. rewrite G. split; [exact Ha|left; reflexivity].
Qed.
