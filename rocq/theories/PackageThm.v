(** Proofs about Package.v. *)
From Coq Require Import Strings.Byte List Bool.
From Verif Require Import Bytes Parser Semantics Impl Records RecordsThm GenBuild GenBuildThm Package.
Import ListNotations.

Lemma assoc_cons {A} n m (o : A) l : assoc n ((m, o) :: l) = if beqb n m then Some o else assoc n l.
Proof. reflexivity. Qed.
Lemma assoc_app {A} n (l m : list (bstr * A)) : assoc n (l ++ m) = match assoc n l with Some o => Some o | None => assoc n m end.
Proof. induction l as [|[a o] l IH]; [reflexivity|]. cbn [app]. rewrite !assoc_cons. destruct (beqb n a); [reflexivity|exact IH]. Qed.
Lemma beqb_refl s : beqb s s = true. Proof. apply beqb_eq. reflexivity. Qed.
Lemma beqb_neq s t : s <> t -> beqb s t = false.
Proof. intros H. destruct (beqb s t) eqn:E; [apply beqb_eq in E; contradiction|reflexivity]. Qed.

(** ** Star imports of submodules *)
Definition plain_utils (ns : namespace) : Prop := assoc "utils"%b ns = None \/ assoc "utils"%b ns = Some (Module "utils.py").
Lemma assoc_load n m ns : assoc n (load m ns) = if beqb n m then Some (Module (m +++ ".py"%b)) else if beqb n "utils" then (if beqb m "utils" then assoc n ns else Some (Module "utils.py")) else assoc n ns.
Proof.
  unfold load. rewrite assoc_cons, assoc_app. destruct (beqb n m); [reflexivity|]. destruct (beqb m "utils"); cbn [assoc]; destruct (beqb n "utils"); reflexivity.
Qed.
Lemma load_utils m ns : plain_utils (load m ns).
Proof.
  right. rewrite assoc_load. rewrite beqb_refl. destruct (beqb "utils" m) eqn:E.
  - apply beqb_eq in E. subst m. reflexivity.
  - destruct (beqb m "utils") eqn:G; [apply beqb_eq in G; subst m; rewrite beqb_refl in E; discriminate|reflexivity].
Qed.
Lemma star_old names : forall ns n o, plain_utils ns -> assoc n ns = Some o -> assoc n (import_star names ns) = Some o.
Proof.
  induction names as [|m names IH]; intros ns n o U H; [exact H|]. unfold import_star. cbn [fold_left].
  destruct (hasattr ns m) eqn:E; [exact (IH ns n o U H)|]. apply (IH (load m ns) n o (load_utils m ns)). rewrite assoc_load.
  destruct (beqb n m) eqn:G; [apply beqb_eq in G; subst m; unfold hasattr in E; rewrite H in E; discriminate|].
  destruct (beqb n "utils") eqn:K; [|exact H]. apply beqb_eq in K. subst n. destruct (beqb m "utils"); [exact H|]. destruct U as [U|U]; congruence.
Qed.
Lemma star_new names : forall ns n, plain_utils ns -> In n names -> assoc n ns = None -> assoc n (import_star names ns) = Some (Module (n +++ ".py"%b)).
Proof.
  induction names as [|m names IH]; intros ns n U H N; [contradiction|]. unfold import_star. cbn [fold_left]. destruct (beqb n m) eqn:G.
  - apply beqb_eq in G. subst m. unfold hasattr. rewrite N. apply (star_old names); [apply load_utils|]. rewrite assoc_load, beqb_refl. reflexivity.
  - destruct H as [->|H]; [rewrite beqb_refl in G; discriminate|]. destruct (hasattr ns m) eqn:E; [exact (IH ns n U H N)|].
    destruct (assoc n (load m ns)) as [o|] eqn:L.
    + fold (import_star names (load m ns)). rewrite (star_old names _ n o (load_utils m ns) L). rewrite assoc_load, G, N in L. destruct (beqb n "utils") eqn:K; [|discriminate].
      apply beqb_eq in K. subst n. destruct (beqb m "utils"); [discriminate|]. injection L as <-. reflexivity.
    + apply (IH (load m ns) n (load_utils m ns) H L).
Qed.
Lemma star_only names : forall ns n o, assoc n (import_star names ns) = Some o -> assoc n ns = Some o \/ o = Module (n +++ ".py"%b) /\ (In n names \/ n = "utils"%b).
Proof.
  induction names as [|m names IH]; intros ns n o H; [left; exact H|]. unfold import_star in H. cbn [fold_left] in H.
  destruct (hasattr ns m) eqn:E.
  - destruct (IH ns n o H) as [K|[-> [K|K]]]; [left; exact K|right; split; [reflexivity|left; right; exact K]|right; split; [reflexivity|right; exact K]].
  - destruct (IH (load m ns) n o H) as [K|[-> [K|K]]]; [|right; split; [reflexivity|left; right; exact K]|right; split; [reflexivity|right; exact K]].
    rewrite assoc_load in K. destruct (beqb n m) eqn:G.
    + apply beqb_eq in G. subst m. injection K as <-. right. split; [reflexivity|left; left; reflexivity].
    + destruct (beqb n "utils") eqn:L; [|left; exact K]. apply beqb_eq in L. subst n. destruct (beqb m "utils"); [left; exact K|]. injection K as <-. right. split; [reflexivity|right; reflexivity].
Qed.

(** ** The formulas *)
Lemma drop_last3_app n : drop_last3 (n +++ ".py"%b) = n.
Proof.
  induction n as [|a n IH]; [reflexivity|]. change (bcons a n +++ ".py"%b) with (bcons a (n +++ ".py"%b)).
  destruct n as [|b n]; [reflexivity|]. destruct n as [|c n]; [reflexivity|]. destruct n as [|d n]; [reflexivity|].
  cbn [bapp] in *. change (drop_last3 (bcons a (bcons b (bcons c (bcons d (n +++ ".py"%b)))))) with (bcons a (drop_last3 (bcons b (bcons c (bcons d (n +++ ".py"%b)))))).
  rewrite IH. reflexivity.
Qed.
Lemma all_modules_in files n : In n (all_modules files) <-> In (n +++ ".py"%b) files /\ bprefix "." (n +++ ".py"%b) = false /\ ends_with "__init__.py" (n +++ ".py"%b) = false.
Proof.
  unfold all_modules. rewrite in_map_iff. split.
  - intros (f & E & H). rewrite !filter_In in H. destruct H as ((H1 & H2) & H3). unfold glob_ext in H2. apply andb_prop in H2. destruct H2 as (H2 & H4).
    apply ends_with_split in H4. destruct H4 as (m & ->). rewrite drop_last3_app in E. subst m. apply negb_true_iff in H2, H3. auto.
  - intros (H1 & H2 & H3). exists (n +++ ".py"%b). split; [apply drop_last3_app|]. rewrite !filter_In. unfold glob_ext. rewrite H2, H3, ends_with_app. auto.
Qed.
Definition taken : list bstr := ["__all__"; "modules"; "glob"; "join"; "isfile"; "basename"; "dirname"]%b.
Lemma helpers_none (l : list bstr) n : ~ In n l -> assoc n (map (fun n => (n, Helper n)) l) = None.
Proof.
  induction l as [|a l IH]; intros H; [reflexivity|]. cbn [map]. rewrite assoc_cons, beqb_neq by (intros E; apply H; left; congruence). apply IH. intros K. apply H. right. exact K.
Qed.
Lemma helpers_some (l : list bstr) n : In n l -> assoc n (map (fun n => (n, Helper n)) l) = Some (Helper n).
Proof.
  induction l as [|a l IH]; intros H; [contradiction|]. cbn [map]. rewrite assoc_cons. destruct (beqb n a) eqn:E; [apply beqb_eq in E; subst a; reflexivity|].
  apply IH. destruct H as [->|H]; [rewrite beqb_refl in E; discriminate|exact H].
Qed.
Theorem formula_found files n : In (n +++ ".py"%b) files -> bprefix "." (n +++ ".py"%b) = false -> ends_with "__init__.py" (n +++ ".py"%b) = false -> ~ In n taken ->
  getattr (impl_package files) n = Ok (Module (n +++ ".py"%b)).
Proof.
  intros H1 H2 H3 H4. unfold getattr, impl_package. rewrite (star_new _ _ n); [reflexivity|left; reflexivity|apply all_modules_in; auto|apply helpers_none, H4].
Qed.
Theorem formula_only files n f : In "utils.py"%b files -> getattr (impl_package files) n = Ok (Module f) -> f = n +++ ".py"%b /\ In f files /\ ~ In n taken.
Proof.
  intros HU. unfold getattr, impl_package. destruct (assoc n _) as [o|] eqn:E; [|discriminate]. intros H. injection H as ->. 
  assert (T : ~ In n taken).
  { intros T. rewrite (star_old _ _ n (Helper n)) in E; [discriminate|left; reflexivity|apply helpers_some, T]. }
  apply star_only in E. unfold impl_helpers in E. fold taken in E. rewrite helpers_none in E by exact T. destruct E as [E|[E [H| ->]]]; [discriminate| |].
  - injection E as ->. apply all_modules_in in H. tauto.
  - injection E as ->. auto.
Qed.
(** A name with a family is neither hidden nor taken. *)
Lemma family_head n : (exists t, In t ["lda"; "gga"; "mgga"]%b /\ has_family n t) -> exists c s, n = bcons c s /\ In c ["l"; "g"; "m"; "h"]%byte.
Proof.
  intros (t & Ht & r & H). cbn [In] in Ht. destruct Ht as [<-|[<-|[<-|[]]]], H as [H|H]; cbn [bapp] in H; rewrite H; eexists; eexists; (split; [reflexivity|]); cbn [In]; tauto.
Qed.
Lemma family_no_init n : (exists t, In t ["lda"; "gga"; "mgga"]%b /\ has_family n t) -> bprefix "." (n +++ ".py"%b) = false.
Proof.
  intros H. apply family_head in H. destruct H as (c & s & -> & H). unfold bprefix. cbn [bapp bstrip]. cbn [In] in H. destruct H as [<-|[<-|[<-|[<-|[]]]]]; reflexivity.
Qed.
Lemma family_free n (l : list bstr) : (exists t, In t ["lda"; "gga"; "mgga"]%b /\ has_family n t) ->
  forallb (fun x => negb (bprefix "lda" x || bprefix "gga" x || bprefix "mgga" x || bprefix "hyb_" x)) l = true -> ~ In n l.
Proof.
  intros (t & Ht & r & H) F I. rewrite forallb_forall in F. specialize (F _ I). cbn [In] in Ht.
  destruct Ht as [<-|[<-|[<-|[]]]], H as [->| ->]; rewrite ?bprefix_app, ?orb_true_r in F; discriminate F.
Qed.
Theorem family_formula_found files n : In (n +++ ".py"%b) files -> (exists t, In t ["lda"; "gga"; "mgga"]%b /\ has_family n t) -> ends_with "__init__.py" (n +++ ".py"%b) = false ->
  getattr (impl_package files) n = Ok (Module (n +++ ".py"%b)).
Proof. intros H F E. apply formula_found; [exact H|apply family_no_init, F|exact E|apply family_free; [exact F|reflexivity]]. Qed.
Theorem built_formula_found ls n : In n (module_names ls) -> (exists t, In t ["lda"; "gga"; "mgga"]%b /\ has_family n t) -> ends_with "__init__.py" (n +++ ".py"%b) = false ->
  getattr (impl_package (impl_files ls)) n = Ok (Module (n +++ ".py"%b)) /\
  (forall f, In f [n +++ ".py"; "utils.py"; "__init__.py"]%b -> In f (impl_files ls)).
Proof.
  intros H F E. assert (M : In (n +++ ".py"%b) (impl_files ls)).
  { unfold impl_files. apply in_or_app. right. apply in_map_iff in H. destruct H as (nm & <- & H). apply in_map_iff. exists nm. split; [reflexivity|exact H]. }
  split; [exact (family_formula_found _ _ M F E)|]. intros f [<-|[<-|[<-|[]]]]; [exact M| |]; unfold impl_files; apply in_or_app; left; cbn [In]; tauto.
Qed.

(** ** The constructors *)
Lemma defs_assoc names : forall ns n, assoc n (fold_left (fun ns n => (n, Constructor n) :: ns) names ns) = if existsb (beqb n) names then Some (Constructor n) else assoc n ns.
Proof.
  induction names as [|m names IH]; intros ns n; [reflexivity|]. cbn [fold_left existsb]. rewrite IH, assoc_cons. destruct (existsb (beqb n) names); [rewrite orb_true_r; reflexivity|].
  rewrite orb_false_r. destruct (beqb n m) eqn:E; [apply beqb_eq in E; subst m; reflexivity|reflexivity].
Qed.
Lemma exists_in n (l : list bstr) : existsb (beqb n) l = true <-> In n l.
Proof. rewrite existsb_exists. split; [intros (x & H & E); apply beqb_eq in E; subst x; exact H|intros H; exists n; split; [exact H|apply beqb_refl]]. Qed.
Definition used : list bstr := ["invoke"; "get_p"; "impl"; "Optional"; "Callable"]%b.
Lemma filter_assoc {A} (p : bstr -> bool) n (l : list (bstr * A)) : p n = true -> assoc n (filter (fun b => p (fst b)) l) = assoc n l.
Proof.
  intros P. induction l as [|[a o] l IH]; [reflexivity|]. cbn [filter fst]. destruct (p a) eqn:E; rewrite ?assoc_cons, IH; [reflexivity|].
  destruct (beqb n a) eqn:G; [apply beqb_eq in G; congruence|reflexivity].
Qed.
Theorem constructors_found names : (forall n, In n names -> exists t, In t ["lda"; "gga"; "mgga"]%b /\ has_family n t) ->
  (forall n, In n names -> getattr (functionals_module names) n = Ok (Constructor n) /\ getattr (package names) n = Ok (Constructor n)) /\
  (forall h, In h used -> getattr (functionals_module names) h = getattr functionals_helpers h) /\
  getattr (package names) "experimental" = Ok (Module "experimental.py").
Proof.
  intros F. assert (D : forall (n : bstr) l, In n names -> forallb (fun x => negb (bprefix "lda" x || bprefix "gga" x || bprefix "mgga" x || bprefix "hyb_" x)) l = true -> ~ In n l)
    by (intros n l Hn Hl; apply family_free; [apply F, Hn|exact Hl]).
  assert (E : getattr (package names) "experimental" = Ok (Module "experimental.py")).
  { unfold getattr, package. rewrite assoc_cons. change (beqb "experimental" "__version__") with false. cbv iota. cbv zeta.
    unfold hasattr. rewrite assoc_app, filter_assoc by reflexivity. unfold functionals_module. rewrite defs_assoc.
    destruct (existsb (beqb "experimental") names) eqn:K; [apply exists_in in K; contradiction (D _ ["experimental"]%b K eq_refl); left; reflexivity|]. reflexivity. }
  split; [|split; [|exact E]].
  - intros n Hn. assert (K : existsb (beqb n) names = true) by (apply exists_in, Hn). split.
    + unfold getattr, functionals_module. rewrite defs_assoc, K. reflexivity.
    + unfold getattr, package. cbv zeta. assert (P : public n = true).
      { destruct (family_head n (F n Hn)) as (c & s & -> & H). unfold public, bprefix. cbn [bstrip]. cbn [In] in H. destruct H as [<-|[<-|[<-|[<-|[]]]]]; reflexivity. }
      assert (A : assoc n (filter (fun b => public (fst b)) (functionals_module names) ++ [("functionals", Module "functionals.py"); ("utils", Module "utils.py"); ("libxc", Module "libxc"); ("impl", Module "impl")]%b) = Some (Constructor n)).
      { rewrite assoc_app, filter_assoc by exact P. unfold functionals_module. rewrite defs_assoc, K. reflexivity. }
      rewrite assoc_cons, beqb_neq by (intros Q; apply (D n ["__version__"]%b Hn eq_refl); left; congruence).
      destruct (hasattr _ _); [rewrite A; reflexivity|]. rewrite assoc_cons, beqb_neq by (intros Q; apply (D n ["experimental"]%b Hn eq_refl); left; congruence). rewrite A. reflexivity.
  - intros h Hh. unfold getattr, functionals_module. rewrite defs_assoc. destruct (existsb (beqb h) names) eqn:K; [|reflexivity]. apply exists_in in K. contradiction (D h used K eq_refl Hh).
Qed.

(** ** The shipped names *)
Definition familiar (n : bstr) : bool :=
  existsb (fun t => bprefix t n || bprefix ("hyb_"%b +++ t) n) ["lda"; "gga"; "mgga"]%b && negb (ends_with "__init__.py" (n +++ ".py"%b)).
Lemma familiar_ok n : familiar n = true -> (exists t, In t ["lda"; "gga"; "mgga"]%b /\ has_family n t) /\ ends_with "__init__.py" (n +++ ".py"%b) = false.
Proof.
  unfold familiar. intros H. apply andb_prop in H. destruct H as (H & K). apply negb_true_iff in K. split; [|exact K].
  apply existsb_exists in H. destruct H as (t & Ht & H). exists t. split; [exact Ht|]. apply family_test, H.
Qed.
