(** Theorems about the generated build files. *)
From Coq Require Import Strings.Byte List Bool Lia PeanoNat.
From Verif Require Import Bytes Impl Records GenBuild.
Import ListNotations.

(** ** Suffixes *)
Lemma brev_app_app s t : forall acc, brev_app (s +++ t) acc = brev_app t (brev_app s acc).
Proof. induction s as [|b s IH]; intros acc; [reflexivity|apply IH]. Qed.
Lemma brev_app_acc s : forall acc, brev_app s acc = brev_app s bnil +++ acc.
Proof.
  induction s as [|b s IH]; intros acc; [reflexivity|]. cbn. rewrite IH, (IH (bcons b bnil)), bapp_assoc. reflexivity.
Qed.
Lemma brev_bapp s t : brev (s +++ t) = brev t +++ brev s.
Proof. unfold brev. rewrite brev_app_app. apply brev_app_acc. Qed.
Lemma brev_inj s t : brev s = brev t -> s = t.
Proof.
  assert (I : forall s, brev (brev s) = s).
  { intros u. induction u as [|b u IH]; [reflexivity|]. change (bcons b u) with (bcons b bnil +++ u). rewrite brev_bapp, brev_bapp, IH. reflexivity. }
  intros H. rewrite <- (I s), <- (I t), H. reflexivity.
Qed.
Lemma bapp_inj_r x y a : x +++ a = y +++ a -> x = y.
Proof. intros H. apply (f_equal brev) in H. rewrite !brev_bapp in H. apply bapp_inj_l in H. apply brev_inj, H. Qed.
(** Compare [x +++ a = y +++ b] for literals a, b from the right. *)
Ltac ends H := apply (f_equal brev) in H; rewrite ?brev_bapp in H; cbn in H; try discriminate H;
  repeat (injection H as H); try (apply brev_inj in H).

Ltac distinct := repeat apply NoDup_cons; try apply NoDup_nil; cbn [In]; intros H; 
  repeat match type of H with _ \/ _ => destruct H as [H|H] | False => elim H end; try discriminate H.

(** ** Rule names of the impl build *)
Definition maple_of (x y : bstr) : Prop := y = x +++ "_maple"%b.
Definition rule_names (prebuilt : bool) (x : bstr) : list bstr :=
  (if prebuilt then [x +++ "_pol"; x +++ "_unpol"] else [x +++ "_maple_pol"; x +++ "_maple_unpol"; x +++ "_pol"; x +++ "_unpol"])%b ++ [x +++ "_gen_py"]%b.
Definition module_names (ls : bstr -> list bstr) : list bstr := map fst (names_and_maple_files ls).
Lemma loop_names prebuilt nms : map r_name (flat_map (loop_rules prebuilt) nms) = flat_map (rule_names prebuilt) (map fst nms).
Proof.
  induction nms as [|[n m] nms IH]; [reflexivity|]. cbn [flat_map map fst]. rewrite map_app, IH. f_equal. destruct prebuilt; reflexivity.
Qed.
Lemma elpam x y : brev x = "elpam_"%b +++ brev y -> maple_of y x.
Proof. intros H. apply brev_inj. unfold maple_of. rewrite brev_bapp. exact H. Qed.
Ltac pairs := repeat match goal with H : _ \/ _ |- _ => destruct H as [H|H] | H : False |- _ => elim H end; subst.
Lemma rule_names_disjoint (prebuilt : bool) x y z : In z (rule_names prebuilt x) -> In z (rule_names prebuilt y) ->
  x = y \/ (prebuilt = false /\ (maple_of x y \/ maple_of y x)).
Proof.
  intros Hx Hy. destruct prebuilt; cbn in Hx, Hy;
    repeat match type of Hx with _ \/ _ => destruct Hx as [Hx|Hx] | False => elim Hx end; subst z;
    repeat match type of Hy with _ \/ _ => destruct Hy as [Hy|Hy] | False => elim Hy end;
    ends Hy; try (left; congruence); right; (split; [reflexivity|]);
    first [left; apply elpam; exact Hy | right; apply elpam; symmetry; exact Hy | left; apply elpam; symmetry; exact Hy | right; apply elpam; exact Hy].
Qed.
Lemma rule_names_NoDup prebuilt x : NoDup (rule_names prebuilt x).
Proof.
  destruct prebuilt; distinct; apply bapp_inj_l in H; discriminate.
Qed.
Lemma fixed_names_distinct prebuilt x z : In z (rule_names prebuilt x) -> ~ In z ["maple_files"; "gen_maple"; "gen_py"; "impl"]%b.
Proof.
  intros Hx Hz. destruct prebuilt; cbn in Hx; repeat match type of Hx with _ \/ _ => destruct Hx as [Hx|Hx] | False => elim Hx end; subst z;
    cbn [In] in Hz; repeat match type of Hz with _ \/ _ => destruct Hz as [Hz|Hz] | False => elim Hz end; ends Hz.
Qed.
Theorem impl_rules_distinct prebuilt ls :
  NoDup (map r_name (impl_build prebuilt ls)) <->
  NoDup (module_names ls) /\ (prebuilt = false -> forall x y, In x (module_names ls) -> In y (module_names ls) -> ~ maple_of x y).
Proof.
  unfold impl_build. rewrite map_app, loop_names. fold (module_names ls). set (l := module_names ls). cbn [map fixed_rules r_name]. split.
  - intros H. apply NoDup_app_elim in H. destruct H as (_ & H & _).
    pose proof (flat_map_disjoint _ _ H) as D.
    apply flat_map_NoDup in H; [|destruct prebuilt; discriminate]. split; [exact H|].
    intros -> x y Hx Hy M. assert (x = y).
    { apply (D x y (x +++ "_maple_pol")%b Hx Hy); [left; reflexivity|]. rewrite M. right. right. left. rewrite bapp_assoc. reflexivity. }
    subst y. red in M. apply (f_equal blen) in M. rewrite blen_app in M. cbn in M. lia.
  - intros (N & D). apply NoDup_app_intro.
    + distinct.
    + apply NoDup_flat_map; [exact N|intros; apply rule_names_NoDup|].
      intros x y z Hx Hy Zx Zy. destruct (rule_names_disjoint prebuilt x y z Zx Zy) as [E|(P & [M|M])]; [exact E|elim (D P x y Hx Hy M)|elim (D P y x Hy Hx M)].
    + intros z Hz Hl. apply in_flat_map in Hl. destruct Hl as (x & _ & Hx). eapply fixed_names_distinct; eassumption.
Qed.

(** ** Output files *)
(** A name without a slash. *)
Fixpoint plain (s : bstr) : bool := match s with bnil => true | bcons b s => negb (Byte.eqb b "/") && plain s end.
Lemma plain_app s t : plain (s +++ t) = plain s && plain t.
Proof. induction s as [|b s IH]; [reflexivity|]. cbn. rewrite IH. apply andb_assoc. Qed.
Definition out_files (prebuilt : bool) (x : bstr) : list bstr :=
  ((if prebuilt then [] else ["maple_pol/" +++ x +++ ".mpl"; "maple_unpol/" +++ x +++ ".mpl"]) ++
   ["pol/" +++ x +++ ".py"; "unpol/" +++ x +++ ".py"; x +++ ".py"])%b.
Lemma loop_outs prebuilt nms : flat_map r_outs (flat_map (loop_rules prebuilt) nms) = flat_map (out_files prebuilt) (map fst nms).
Proof.
  induction nms as [|[n m] nms IH]; [reflexivity|]. cbn [flat_map map fst]. rewrite flat_map_app, IH. f_equal. destruct prebuilt; reflexivity.
Qed.
Ltac slash H := exfalso; apply (f_equal plain) in H; rewrite ?plain_app in H; cbn in H; congruence.
Lemma out_files_disjoint prebuilt x y z : plain x = true -> plain y = true -> In z (out_files prebuilt x) -> In z (out_files prebuilt y) -> x = y.
Proof.
  intros Px Py Hx Hy. destruct prebuilt; cbn [out_files app In] in Hx, Hy;
    repeat match type of Hx with _ \/ _ => destruct Hx as [Hx|Hx] | False => elim Hx end; subst z;
    repeat match type of Hy with _ \/ _ => destruct Hy as [Hy|Hy] | False => elim Hy end;
    first [ cbn in Hy; discriminate Hy
          | symmetry; apply bapp_inj_r in Hy; exact Hy
          | apply bapp_inj_l in Hy; apply bapp_inj_r in Hy; symmetry; exact Hy
          | exfalso; apply (f_equal plain) in Hy; rewrite !plain_app in Hy; rewrite ?Px, ?Py in Hy; cbn in Hy; discriminate Hy ].
Qed.
Lemma out_files_NoDup prebuilt x : plain x = true -> NoDup (out_files prebuilt x).
Proof.
  intros Px. destruct prebuilt; cbn [out_files app]; distinct; first
    [ cbn in H; discriminate H
    | exfalso; apply (f_equal plain) in H; rewrite !plain_app in H; rewrite ?Px in H; cbn in H; discriminate H ].
Qed.
Theorem impl_outputs_distinct prebuilt ls : Forall (fun n => plain n = true) (module_names ls) -> NoDup (module_names ls) ->
  NoDup (flat_map r_outs (impl_build prebuilt ls)).
Proof.
  intros P N. unfold impl_build. rewrite flat_map_app, loop_outs. cbn [fixed_rules flat_map r_outs app].
  rewrite Forall_forall in P. apply NoDup_flat_map; [exact N| |].
  - intros x Hx. apply out_files_NoDup, P, Hx.
  - intros x y z Hx Hy. apply out_files_disjoint; apply P; assumption.
Qed.

(** ** One module target per Maple file, exported by the library *)
Definition is_library (nms : list (bstr * bstr)) (r : rule) : Prop := r = Rule "impl" (library_srcs nms) [].
Lemma module_rule_in prebuilt ls n : In n (module_names ls) -> In (module_rule n) (impl_build prebuilt ls).
Proof.
  intros H. apply in_map_iff in H. destruct H as (nm & <- & H). unfold impl_build. apply in_or_app. right. apply in_flat_map. exists nm.
  split; [exact H|]. unfold loop_rules. apply in_or_app. right. left. reflexivity.
Qed.
Theorem module_target prebuilt ls n : Forall (fun n => plain n = true) (module_names ls) -> NoDup (module_names ls) -> In n (module_names ls) ->
  In (module_rule n) (impl_build prebuilt ls) /\
  forall r, In r (impl_build prebuilt ls) -> In (n +++ ".py"%b) (r_outs r) -> r = module_rule n.
Proof.
  intros P N H. pose proof (module_rule_in prebuilt ls n H) as M. split; [exact M|]. intros r Hr Ho.
  apply (flat_map_disjoint r_outs _ (impl_outputs_distinct prebuilt ls P N) r (module_rule n) (n +++ ".py"%b) Hr M Ho).
  left. reflexivity.
Qed.
(** Every source of a module target is written by a rule of the same build. *)
Theorem module_sources prebuilt ls n s : In n (module_names ls) -> In s (r_srcs (module_rule n)) ->
  exists r, In r (impl_build prebuilt ls) /\ r_outs r = [s].
Proof.
  intros H Hs. apply in_map_iff in H. destruct H as (nm & <- & H). cbn [module_rule r_srcs In] in Hs.
  assert (A : forall r, In r (loop_rules prebuilt nm) -> In r (impl_build prebuilt ls)).
  { intros r Hr. unfold impl_build. apply in_or_app. right. apply in_flat_map. exists nm. split; assumption. }
  destruct Hs as [<-|[<-|[]]].
  - exists (Rule (fst nm +++ "_pol") [if prebuilt then "@build_jax_xc//gen_repo/impl/prebuilt/pol:" +++ fst nm +++ ".py" else "maple_pol/" +++ fst nm +++ ".mpl"]
             ["pol/" +++ fst nm +++ ".py"])%b. split; [|reflexivity]. apply A. unfold loop_rules. apply in_or_app. left. destruct prebuilt; cbn; auto.
  - exists (Rule (fst nm +++ "_unpol") [if prebuilt then "@build_jax_xc//gen_repo/impl/prebuilt/unpol:" +++ fst nm +++ ".py" else "maple_unpol/" +++ fst nm +++ ".mpl"]
             ["unpol/" +++ fst nm +++ ".py"])%b. split; [|reflexivity]. apply A. unfold loop_rules. apply in_or_app. left. destruct prebuilt; cbn; auto.
Qed.
(** The library exports the module targets and nothing else from the build. *)
Theorem library_exports prebuilt ls label :
  In label (library_srcs (names_and_maple_files ls)) <->
  label = "__init__.py"%b \/ label = "utils.py"%b \/
  exists r, In r (impl_build prebuilt ls) /\ (exists n, In n (module_names ls) /\ r = module_rule n) /\ label = bcons ":"%byte (r_name r).
Proof.
  unfold library_srcs. cbn [app In]. split.
  - intros [<-|[<-|H]]; [left; reflexivity|right; left; reflexivity|]. right. right. apply in_map_iff in H. destruct H as (nm & <- & H).
    assert (M : In (fst nm) (module_names ls)) by (apply in_map; exact H).
    exists (module_rule (fst nm)). split; [apply module_rule_in, M|]. split; [exists (fst nm); auto|reflexivity].
  - intros [->|[->|(r & _ & (n & Hn & ->) & ->)]]; [auto|auto|]. right. right. apply in_map_iff in Hn. destruct Hn as (nm & <- & Hn).
    apply in_map_iff. exists nm. split; [reflexivity|exact Hn].
Qed.
(** The listed Maple files are those of the six folders: a file whose only dot starts its
    extension is read under its own name. *)
Lemma until_dot_ext n : (forall a b, n <> a +++ bcons "."%byte b) -> until_dot (n +++ ".mpl"%b) = n.
Proof.
  induction n as [|c n IH]; intros H; [reflexivity|]. cbn [bapp until_dot].
  destruct (Byte.eqb c ".") eqn:E; [apply byte_eqb_eq in E; subst; elim (H bnil n); reflexivity|].
  f_equal. apply IH. intros a b Hn. apply (H (bcons c a) b). cbn. congruence.
Qed.
Lemma bprefix_app p s : bprefix p (p +++ s) = true.
Proof. unfold bprefix. assert (bstrip p (p +++ s) = Some s) as -> by (apply bstrip_app; reflexivity). reflexivity. Qed.
Lemma ends_with_app s suf : ends_with suf (s +++ suf) = true.
Proof. unfold ends_with. rewrite brev_bapp. apply bprefix_app. Qed.
Lemma ends_with_split suf s : ends_with suf s = true -> exists t, s = t +++ suf.
Proof.
  unfold ends_with, bprefix. destruct (bstrip (brev suf) (brev s)) as [t|] eqn:E; [|discriminate]. intros _.
  apply bstrip_app in E. exists (brev t). apply brev_inj. rewrite brev_bapp. rewrite E. f_equal.
  apply brev_inj. assert (I : forall u, brev (brev u) = u).
  { intros u. induction u as [|b u IH]; [reflexivity|]. change (bcons b u) with (bcons b bnil +++ u). rewrite brev_bapp, brev_bapp, IH. reflexivity. }
  rewrite I. reflexivity.
Qed.
Theorem maple_file_listed ls folder n : In folder folders -> n <> bnil -> (forall a b, n <> a +++ bcons "."%byte b) ->
  In (n +++ ".mpl"%b) (ls folder) -> In (n, folder +++ bcons "/"%byte (n +++ ".mpl"%b)) (names_and_maple_files ls).
Proof.
  intros Hf Hn Hd Hl. unfold names_and_maple_files. apply in_flat_map. exists folder. split; [exact Hf|].
  apply in_map_iff. exists (n +++ ".mpl"%b). rewrite until_dot_ext by exact Hd. split; [reflexivity|].
  apply filter_In. split; [exact Hl|]. unfold glob_ext. rewrite ends_with_app, andb_true_r.
  destruct n as [|c n]; [elim Hn; reflexivity|]. unfold bprefix. cbn [bapp bstrip]. destruct (Byte.eqb "." c) eqn:E; [|reflexivity].
  apply byte_eqb_eq in E. subst c. elim (Hd bnil n). reflexivity.
Qed.
Theorem maple_file_exists ls n f : (forall folder g, In g (ls folder) -> ends_with ".mpl" g = true -> exists m, g = m +++ ".mpl"%b /\ forall a b, m <> a +++ bcons "."%byte b) ->
  In (n, f) (names_and_maple_files ls) -> exists folder, In folder folders /\ In (n +++ ".mpl"%b) (ls folder) /\ f = folder +++ bcons "/"%byte (n +++ ".mpl"%b).
Proof.
  intros S1 H. unfold names_and_maple_files in H. apply in_flat_map in H. destruct H as (folder & Hf & H). apply in_map_iff in H.
  destruct H as (g & E & H). apply filter_In in H. destruct H as (Hg & G). unfold glob_ext in G. apply andb_prop in G. destruct G as (_ & G).
  destruct (S1 folder g Hg G) as (m & -> & Hm). rewrite until_dot_ext in E by exact Hm. injection E as <- <-. exists folder. auto.
Qed.

(** ** The libxc build *)
Theorem libxc_wrapped src f : In f (c_file_basenames src) <->
  In f src /\ (exists n, f = n +++ ".c"%b) /\ bprefix "." f = false /\ bprefix "funcs_" f = false /\ bprefix "work_" f = false.
Proof.
  unfold c_file_basenames. rewrite !filter_In. unfold glob_ext. split.
  - intros ((A & B) & C). apply andb_prop in B. destruct B as (B1 & B2). apply ends_with_split in B2.
    apply negb_true_iff in B1, C. apply orb_false_iff in C. destruct C. auto.
  - intros (A & (n & ->) & B & C & D). rewrite B, C, D, ends_with_app. auto.
Qed.
Lemma wrap_names_disjoint x y z : ends_with ".c" x = true -> ends_with ".c" y = true -> In z (map r_name (wrap_rules x)) -> In z (map r_name (wrap_rules y)) -> x = y.
Proof.
  intros X Y Hx Hy. apply ends_with_split in X, Y. destruct X as (x' & ->), Y as (y' & ->).
  cbn [wrap_rules map r_name In] in Hx, Hy. destruct Hx as [<-|[<-|[]]], Hy as [Hy|[Hy|[]]].
  - apply bapp_inj_l, bapp_inj_r in Hy. symmetry. exact Hy.
  - exfalso. rewrite <- bapp_assoc in Hy. ends Hy.
  - exfalso. rewrite <- bapp_assoc in Hy. ends Hy.
  - apply bapp_inj_r in Hy. symmetry. exact Hy.
Qed.
Lemma wrap_names_NoDup x : ends_with ".c" x = true -> NoDup (map r_name (wrap_rules x)).
Proof.
  intros X. apply ends_with_split in X. destruct X as (x' & ->). cbn [wrap_rules map r_name]. distinct. rewrite <- bapp_assoc in H. ends H.
Qed.
Theorem libxc_rules_distinct src : NoDup src -> NoDup (map r_name (libxc_build src)).
Proof.
  intros N. unfold libxc_build. rewrite map_app.
  assert (C : forall f, In f (c_file_basenames src) -> ends_with ".c" f = true).
  { intros f Hf. apply libxc_wrapped in Hf. destruct Hf as (_ & (n & ->) & _). apply ends_with_app. }
  assert (E : map r_name (flat_map wrap_rules (c_file_basenames src)) = flat_map (fun x => map r_name (wrap_rules x)) (c_file_basenames src)).
  { induction (c_file_basenames src) as [|x l IH]; [reflexivity|]. cbn [flat_map]. rewrite map_app, IH; [reflexivity|]. intros f Hf. apply C. right. exact Hf. }
  rewrite E. apply NoDup_app_intro.
  - cbn [fixed_libxc map r_name]. distinct.
  - apply NoDup_flat_map; [unfold c_file_basenames; apply NoDup_filter, NoDup_filter, N| |].
    + intros x Hx. apply wrap_names_NoDup, C, Hx.
    + intros x y z Hx Hy. apply wrap_names_disjoint; apply C; assumption.
  - intros z Hz Hl. apply in_flat_map in Hl. destruct Hl as (x & Hx & Hl). apply C, ends_with_split in Hx. destruct Hx as (x' & ->).
    cbn [wrap_rules map r_name In] in Hl. cbn [fixed_libxc map r_name In] in Hz.
    destruct Hl as [<-|[<-|[]]]; repeat match type of Hz with _ \/ _ => destruct Hz as [Hz|Hz] | False => elim Hz end; 
      rewrite <- ?bapp_assoc in Hz; ends Hz.
Qed.
Theorem libxc_linked src f : In f (c_file_basenames src) ->
  In (Rule (f +++ "c.obj") ["src_cc/" +++ f +++ "c"] [])%b (libxc_build src) /\
  In (Rule ("gen_" +++ f +++ "c") ["src/" +++ f] ["src_cc/" +++ f +++ "c"])%b (libxc_build src) /\
  In (bcons ":"%byte (f +++ "c.obj"%b)) (extension_deps (c_file_basenames src)).
Proof.
  intros H. repeat split.
  - unfold libxc_build. apply in_or_app. right. apply in_flat_map. exists f. split; [exact H|]. right. left. reflexivity.
  - unfold libxc_build. apply in_or_app. right. apply in_flat_map. exists f. split; [exact H|]. left. reflexivity.
  - unfold extension_deps. apply in_or_app. right. apply in_map_iff. exists f. split; [reflexivity|exact H].
Qed.
