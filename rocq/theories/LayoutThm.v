(** What the repository rule makes of an archive: proofs about Layout.v. *)
From Coq Require Import Strings.Byte List Bool Lia PeanoNat.
From Verif Require Import Bytes Impl Records GenBuild GenBuildThm Layout.
Import ListNotations.

(** ** Paths *)
Lemma path_eqb_eq p : forall q, path_eqb p q = true <-> p = q.
Proof.
  induction p as [|x p IH]; intros [|y q]; cbn [path_eqb]; try (split; congruence).
  rewrite andb_true_iff, beqb_eq, IH. split; [intros [-> ->]; reflexivity|intros E; injection E as -> ->; auto].
Qed.
Lemma path_eqb_refl p : path_eqb p p = true. Proof. apply path_eqb_eq. reflexivity. Qed.
Lemma path_eqb_sym p q : path_eqb p q = path_eqb q p.
Proof. destruct (path_eqb p q) eqn:E, (path_eqb q p) eqn:G; try reflexivity; [apply path_eqb_eq in E|apply path_eqb_eq in G]; subst; rewrite path_eqb_refl in *; discriminate. Qed.
Lemma under_app p : forall q r, under p q = Some r <-> q = p ++ r.
Proof.
  induction p as [|x p IH]; intros q r; cbn [under app]; [split; congruence|].
  destruct q as [|y q]; [split; discriminate|]. destruct (beqb x y) eqn:E.
  - apply beqb_eq in E. subst y. rewrite IH. split; congruence.
  - split; [discriminate|]. intros G. injection G as G1 G2. subst y. rewrite beqb_refl in E. discriminate.
Qed.
Lemma under_self p r : under p (p ++ r) = Some r. Proof. apply under_app. reflexivity. Qed.
Lemma under_both p s : forall r, under (p ++ s) (p ++ r) = under s r.
Proof. induction p as [|x p IH]; intros r; [reflexivity|]. cbn [app under]. rewrite beqb_refl. apply IH. Qed.
Lemma under_above p s q : under p q = None -> under (p ++ s) q = None.
Proof. intros H. destruct (under (p ++ s) q) eqn:E; [|reflexivity]. apply under_app in E. rewrite E, <- app_assoc, under_self in H. discriminate. Qed.

(** ** Entries *)
Lemma look_in q F n : look q F = Some n -> In (q, n) F.
Proof.
  induction F as [|[p m] F IH]; cbn [look]; [discriminate|]. destruct (path_eqb p q) eqn:E; [|intros H; right; apply IH, H].
  apply path_eqb_eq in E. subst p. intros H. injection H as ->. left. reflexivity.
Qed.
Lemma in_look q n F : In (q, n) F -> look q F <> None.
Proof.
  induction F as [|[p m] F IH]; [intros []|]. cbn [look]. intros [E|H]; [injection E as -> ->; rewrite path_eqb_refl; discriminate|].
  destruct (path_eqb p q); [discriminate|apply IH, H].
Qed.
Lemma look_filter (g : path -> bool) F q : look q (filter (fun e => g (fst e)) F) = if g q then look q F else None.
Proof.
  induction F as [|[p m] F IH]; cbn [filter look fst]; [destruct (g q); reflexivity|].
  destruct (g p) eqn:G; cbn [look]; rewrite IH.
  - destruct (path_eqb p q) eqn:E; [|reflexivity]. apply path_eqb_eq in E. subst p. rewrite G. reflexivity.
  - destruct (path_eqb p q) eqn:E; [|reflexivity]. apply path_eqb_eq in E. subst p. rewrite G. reflexivity.
Qed.
Lemma look_put p n F q : look q (put p n F) = if path_eqb p q then Some n else look q F.
Proof.
  unfold put. cbn [look]. destruct (path_eqb p q) eqn:E; [reflexivity|].
  rewrite (look_filter (fun x => negb (path_eqb x p))). rewrite path_eqb_sym, E. reflexivity.
Qed.
Lemma look_delete p F q : look q (delete p F) = match under p q with Some _ => None | None => look q F end.
Proof. unfold delete. rewrite (look_filter (fun x => match under p x with Some _ => false | None => true end)). destruct (under p q); reflexivity. Qed.
Lemma look_edit p n F q : look p F <> None ->
  look q (map (fun e => if path_eqb (fst e) p then (p, n) else e) F) = if path_eqb p q then Some n else look q F.
Proof.
  induction F as [|[x m] F IH]; intros H; [contradiction (H eq_refl)|]. cbn [map look fst] in *.
  destruct (path_eqb x p) eqn:E; cbn [look].
  - apply path_eqb_eq in E. subst x. destruct (path_eqb p q) eqn:G; [reflexivity|]. clear IH H.
    induction F as [|[x k] F IH]; [reflexivity|]. cbn [map look fst].
    destruct (path_eqb x p) eqn:E; cbn [look]; [|destruct (path_eqb x q); [reflexivity|exact IH]].
    apply path_eqb_eq in E. subst x. rewrite G. exact IH.
  - rewrite (IH H). destruct (path_eqb p q) eqn:G, (path_eqb x q) eqn:X; try reflexivity.
    apply path_eqb_eq in G. apply path_eqb_eq in X. subst. rewrite path_eqb_refl in E. discriminate.
Qed.
Lemma look_move a t F q : (forall r, look (t ++ r) F = None) -> under a t = None -> under t a = None ->
  look q (move a t F) = match under t q with Some r => look (a ++ r) F | None => match under a q with Some _ => None | None => look q F end end.
Proof.
  intros N U V. induction F as [|[p m] F IH]; [cbn; destruct (under t q); [|destruct (under a q)]; reflexivity|].
  assert (N' : forall r, look (t ++ r) F = None) by (intros r; specialize (N r); cbn [look] in N; destruct (path_eqb p (t ++ r)); [discriminate|exact N]).
  assert (K : under t p = None).
  { destruct (under t p) as [r|] eqn:E; [|reflexivity]. apply under_app in E. subst p. specialize (N r). cbn [look] in N. rewrite path_eqb_refl in N. discriminate. }
  specialize (IH N'). unfold move in *. cbn [map fst snd look]. destruct (under a p) as [r|] eqn:E; cbn [look]; rewrite IH.
  - apply under_app in E. subst p. destruct (path_eqb (t ++ r) q) eqn:G.
    + apply path_eqb_eq in G. subst q. rewrite under_self. cbn [look]. rewrite path_eqb_refl. reflexivity.
    + destruct (under t q) as [s|] eqn:S.
      * apply under_app in S. subst q. cbn [look]. destruct (path_eqb (a ++ r) (a ++ s)) eqn:H; [|reflexivity].
        apply path_eqb_eq, app_inv_head in H. subst s. rewrite path_eqb_refl in G. discriminate.
      * destruct (under a q) eqn:W; [reflexivity|]. destruct (path_eqb (a ++ r) q) eqn:H; [|reflexivity].
        apply path_eqb_eq in H. subst q. rewrite under_self in W. discriminate.
  - destruct (path_eqb p q) eqn:G.
    + apply path_eqb_eq in G. subst q. rewrite K, E. reflexivity.
    + destruct (under t q) as [s|] eqn:S; [|destruct (under a q); reflexivity].
      cbn [look]. destruct (path_eqb p (a ++ s)) eqn:H; [|reflexivity]. apply path_eqb_eq in H. subst p. rewrite under_self in E. discriminate.
Qed.

(** ** Listings *)
Lemma filter_twice {X} (f g : X -> bool) l : filter f (filter g l) = filter (fun x => g x && f x) l.
Proof. induction l as [|x l IH]; [reflexivity|]. cbn [filter]. destruct (g x); cbn [filter andb]; [|exact IH]. destruct (f x); rewrite IH; reflexivity. Qed.
Lemma ls_cons p q n F : ls p ((q, n) :: F) = entry p q ++ ls p F. Proof. reflexivity. Qed.
Lemma ls_put p q n F : entry p q = [] -> ls p (put q n F) = ls p F.
Proof.
  intros H. unfold put. rewrite ls_cons, H. cbn [app]. induction F as [|[x m] F IH]; [reflexivity|]. cbn [filter fst].
  destruct (path_eqb x q) eqn:E; cbn [negb]; rewrite ?ls_cons, ?IH; [|reflexivity]. apply path_eqb_eq in E. subst x. rewrite H. reflexivity.
Qed.
Lemma ls_edit p q n F : ls p (map (fun e => if path_eqb (fst e) q then (q, n) else e) F) = ls p F.
Proof.
  induction F as [|[x m] F IH]; [reflexivity|]. cbn [map fst]. destruct (path_eqb x q) eqn:E; rewrite !ls_cons, IH; [|reflexivity].
  apply path_eqb_eq in E. subst x. reflexivity.
Qed.
Lemma ls_delete p x F : ls p (delete (p ++ [x]) F) = filter (fun y => negb (beqb x y)) (ls p F).
Proof.
  induction F as [|[q m] F IH]; [reflexivity|]. unfold delete in *. cbn [filter fst]. rewrite ls_cons, filter_app, <- IH.
  destruct (under (p ++ [x]) q) as [r|] eqn:E.
  - apply under_app in E. subst q. unfold entry. rewrite <- app_assoc, under_self. cbn [app]. destruct r; [|reflexivity]. cbn [filter]. rewrite beqb_refl. reflexivity.
  - rewrite ls_cons. f_equal. unfold entry. destruct (under p q) as [[|y [|z s]]|] eqn:U; try reflexivity. apply under_app in U. subst q. rewrite under_both in E.
    cbn [under] in E. cbn [filter]. destruct (beqb x y); [discriminate|reflexivity].
Qed.
Lemma ls_delete_other p d F : (forall q, entry p (d ++ q) = []) -> ls p (delete d F) = ls p F.
Proof.
  intros H. induction F as [|[q m] F IH]; [reflexivity|]. unfold delete in *. cbn [filter fst]. destruct (under d q) as [r|] eqn:E.
  - apply under_app in E. subst q. rewrite ls_cons, H. exact IH.
  - rewrite !ls_cons, IH. reflexivity.
Qed.
Lemma ls_move a t s F : (forall r, look (t ++ r) F = None) -> ls (t ++ s) (move a t F) = ls (a ++ s) F.
Proof.
  intros N. unfold move, ls. rewrite !flat_map_concat_map, map_map. f_equal. apply map_ext_in.
  intros [q m] H. cbn [fst snd]. unfold entry. destruct (under a q) as [r|] eqn:E; cbn [fst].
  - apply under_app in E. subst q. rewrite !under_both. reflexivity.
  - rewrite (under_above a s q E). rewrite (under_above t s q); [reflexivity|].
    destruct (under t q) as [r|] eqn:G; [|reflexivity]. apply under_app in G. subst q. apply in_look in H. rewrite N in H. contradiction (H eq_refl).
Qed.
Lemma ls_move_other a t p F : (forall q, entry p (a ++ q) = []) -> (forall q, entry p (t ++ q) = []) -> ls p (move a t F) = ls p F.
Proof.
  intros Ha Ht. unfold move, ls. rewrite flat_map_concat_map, map_map, <- flat_map_concat_map. apply flat_map_ext.
  intros [q m]. cbn [fst snd]. destruct (under a q) as [r|] eqn:E; [|reflexivity]. apply under_app in E. subst q. cbn [fst]. rewrite Ha, Ht. reflexivity.
Qed.

Lemma mv_onto a b F n : is_dir b F = false -> look a F = Some n -> is_dir (removelast b) F = true -> under a b = None -> look b F = None ->
  mv a b F = move a b F.
Proof. intros D L P U N. unfold mv. rewrite D, L, P, U, N. reflexivity. Qed.
Lemma mv_into a b F n : is_dir b F = true -> look a F = Some n -> under a (b ++ [last a bnil]) = None -> look (b ++ [last a bnil]) F = None -> b <> [] ->
  mv a b F = move a (b ++ [last a bnil]) F.
Proof. intros D L U N _. unfold mv. rewrite D, L, removelast_last, D, U, N. reflexivity. Qed.

Fixpoint all_dirs (done rest : path) (F : tree) : Prop :=
  match rest with [] => True | x :: r => look (done ++ [x]) F = Some Dir /\ all_dirs (done ++ [x]) r F end.
Lemma mkdirs_there F : forall rest done, all_dirs done rest F -> mkdirs done rest F = Some F.
Proof. induction rest as [|x r IH]; intros done; [reflexivity|]. cbn [all_dirs mkdirs]. intros [-> H]. apply IH, H. Qed.
Lemma mkdirs_last F x : forall rest done, all_dirs done rest F -> look (done ++ rest ++ [x]) F = None -> mkdirs done (rest ++ [x]) F = Some ((done ++ rest ++ [x], Dir) :: F).
Proof.
  induction rest as [|y r IH]; intros done; cbn [all_dirs mkdirs app].
  - intros _ ->. reflexivity.
  - intros [-> H] N. rewrite IH by (assumption || (rewrite <- app_assoc; exact N)). rewrite <- app_assoc. reflexivity.
Qed.
Lemma link_ok l dest F : all_dirs [] (removelast dest) F -> look dest F = None -> symlink l dest F = Ok ((dest, Link l) :: F).
Proof. intros D N. unfold symlink. rewrite mkdirs_there by exact D. rewrite N. reflexivity. Qed.
Lemma link_new l d x y F : all_dirs [] d F -> look (d ++ [x]) F = None -> look (d ++ [x; y]) F = None ->
  symlink l (d ++ [x; y]) F = Ok ((d ++ [x; y], Link l) :: (d ++ [x], Dir) :: F).
Proof.
  intros D N M. unfold symlink. replace (d ++ [x; y]) with ((d ++ [x]) ++ [y]) by (rewrite <- app_assoc; reflexivity). rewrite removelast_last.
  rewrite (mkdirs_last F x d [] D N). cbn [app look]. destruct (path_eqb (d ++ [x]) ((d ++ [x]) ++ [y])) eqn:E.
  - apply path_eqb_eq in E. rewrite <- (app_nil_r (d ++ [x])) in E at 1. apply app_inv_head in E. discriminate.
  - rewrite <- app_assoc. cbn [app]. rewrite M. reflexivity.
Qed.

Lemma generate_ok script template out rules F l m : look script F = Some (Link l) -> look template F = Some (Link m) -> look out F <> Some Dir ->
  is_dir (removelast out) F = true -> generate script template out rules F = Ok (put out (Build (rules F)) F).
Proof. intros S T O D. unfold generate. rewrite S, T, D. destruct (look out F) as [[]|]; try reflexivity. contradiction (O eq_refl). Qed.
Lemma look_app p L F : look p (L ++ F) = match look p L with Some n => Some n | None => look p F end.
Proof. induction L as [|[q n] L IH]; [reflexivity|]. cbn [app look]. destruct (path_eqb q p); [reflexivity|exact IH]. Qed.
Lemma ls_app p L F : ls p (L ++ F) = ls p L ++ ls p F. Proof. apply flat_map_app. Qed.

(** ** Archives *)
(** Every entry lies in a directory. *)
Definition archive (A : tree) : Prop := look [] A = None /\ forall p x n, look (p ++ [x]) A = Some n -> is_dir p A = true.
Lemma nothing_under A p : archive A -> p <> [] -> look p A = None -> forall r, look (p ++ r) A = None.
Proof.
  intros [_ H] Np N r. induction r as [|x r IH] using rev_ind; [rewrite app_nil_r; exact N|].
  destruct (look (p ++ r ++ [x]) A) as [n|] eqn:E; [|reflexivity]. rewrite app_assoc in E. specialize (H _ _ _ E). unfold is_dir in H. rewrite IH in H.
  destruct (p ++ r) eqn:G; [|discriminate]. apply app_eq_nil in G. destruct G as [-> _]. contradiction (Np eq_refl).
Qed.
Lemma nothing_in_file A p : archive A -> p <> [] -> look p A <> Some Dir -> forall r, r <> [] -> look (p ++ r) A = None.
Proof.
  intros HA Np N r Hr. destruct r as [|x r]; [contradiction (Hr eq_refl)|].
  assert (L : look (p ++ [x]) A = None).
  { destruct (look (p ++ [x]) A) as [n|] eqn:E; [|reflexivity]. apply (proj2 HA) in E. unfold is_dir in E. destruct p; [contradiction (Np eq_refl)|].
    destruct (look (b :: p) A) as [[]|]; congruence. }
  change (x :: r) with ([x] ++ r). rewrite app_assoc. apply nothing_under; [exact HA|destruct p; discriminate|exact L].
Qed.

(** What the rule needs of an archive. *)
Record releasable (os : bstr) (edits : bstr -> bstr -> option bstr) (A : tree) : Prop := {
  rl_tree : archive A;
  rl_src : look ["src"]%b A = Some Dir;
  rl_py : look ["pylibxc"]%b A = Some Dir;
  rl_maple : look ["maple"]%b A = Some Dir;
  rl_version : exists c, look ["xc_version.h.in"]%b A = Some (File c);
  rl_core : exists c c', look ["pylibxc"; "core.py"]%b A = Some (File c) /\ edits (patch_label os) c = Some c';
  rl_work : look ["WORKSPACE"]%b A <> Some Dir;
  rl_build : look ["pylibxc"; "BUILD"]%b A <> Some Dir;
  rl_top : look ["jax_xc"]%b A = None /\ look ["BUILD"]%b A = None;
  rl_free : forall x, In x ["src"; "src_cc"; "xc_version.h.in"; "wrap.py"; "wrap.cc.jinja"; "gen_build.py"; "build.jinja"]%b -> look ["pylibxc"%b; x] A = None }.

Ltac dec1 := match goal with
  | |- context[beqb ?a ?b] => let v := eval vm_compute in (beqb a b) in
      match v with true => idtac | false => idtac end; change (beqb a b) with v
  | H : context[beqb ?a ?b] |- _ => let v := eval vm_compute in (beqb a b) in
      match v with true => idtac | false => idtac end; change (beqb a b) with v in H
  end.
Ltac dec := cbn [path_eqb under app andb removelast last is_dir negb]; repeat (dec1; cbn [path_eqb under app andb removelast last is_dir negb]).

Section Rule.
Variables (os : bstr) (prebuilt : bool) (edits : bstr -> bstr -> option bstr) (A : tree) (c c' : bstr).
Hypothesis RL : releasable os edits A.
Hypothesis Hc : look ["pylibxc"; "core.py"]%b A = Some (File c).
Hypothesis He : edits (patch_label os) c = Some c'.

Lemma free_py x r : In x ["src"; "src_cc"; "xc_version.h.in"; "wrap.py"; "wrap.cc.jinja"; "gen_build.py"; "build.jinja"]%b -> look ("pylibxc"%b :: x :: r) A = None.
Proof. intros H. apply (nothing_under A ["pylibxc"%b; x] (rl_tree _ _ _ RL)); [discriminate|exact (rl_free _ _ _ RL x H)]. Qed.
Lemma free_top r : look ("jax_xc"%b :: r) A = None.
Proof. apply (nothing_under A ["jax_xc"%b] (rl_tree _ _ _ RL)); [discriminate|exact (proj1 (rl_top _ _ _ RL))]. Qed.

(** After the deletions and the patch. *)
Definition F0 : tree := fold_left (fun F x => delete ["src"%b; x] F) removed (put ["WORKSPACE"]%b (File bnil) A).
Definition F1 : tree := map (fun e => if path_eqb (fst e) ["pylibxc"; "core.py"]%b then (["pylibxc"; "core.py"]%b, File c') else e) F0.
Definition gone (q : path) : bool := match q with s :: x :: _ => beqb "src" s && existsb (fun a => beqb a x) removed | _ => false end.
Lemma look_F0 q : look q F0 = if gone q then None else if path_eqb ["WORKSPACE"]%b q then Some (File bnil) else look q A.
Proof.
  unfold F0, removed. cbn [fold_left]. rewrite !look_delete, look_put. destruct q as [|s [|x r]].
  - reflexivity.
  - cbn [under gone path_eqb]. destruct (beqb "src" s); reflexivity.
  - cbn [gone under]. destruct (beqb "src" s); [|reflexivity]. unfold removed. cbn [existsb andb].
    destruct (beqb "xc-info.c" x), (beqb "xc-sanity.c" x), (beqb "xc-threshold.c" x), (beqb "test.c" x), (beqb "genwiki.c" x); reflexivity.
Qed.
Lemma look_F1 q : look q F1 = if gone q then None else if path_eqb ["WORKSPACE"]%b q then Some (File bnil) else
  if path_eqb ["pylibxc"; "core.py"]%b q then Some (File c') else look q A.
Proof.
  unfold F1. rewrite look_edit by (rewrite look_F0; dec; cbn [gone]; dec; rewrite Hc; discriminate). rewrite look_F0.
  destruct (path_eqb ["pylibxc"; "core.py"]%b q) eqn:E; [|reflexivity]. apply path_eqb_eq in E. subst q. reflexivity.
Qed.
Lemma prepare_ok : prepare os edits A = Ok F1.
Proof.
  unfold prepare, patch. fold F0. rewrite look_F0. cbn [gone]. dec. cbn [andb]. rewrite Hc, He. reflexivity.
Qed.


(** The later trees are known by what [look] and [ls] find in them. *)
Definition v1 (q : path) : option node := if gone q then None else if path_eqb ["WORKSPACE"]%b q then Some (File bnil) else
  if path_eqb ["pylibxc"; "core.py"]%b q then Some (File c') else look q A.
Definition v2 (q : path) : option node := if path_eqb ["jax_xc"]%b q then Some Dir else v1 q.
Definition moved (a t : path) (v : path -> option node) (q : path) : option node :=
  match under t q with Some r => v (a ++ r) | None => match under a q with Some _ => None | None => v q end end.
Definition v3 := moved ["pylibxc"]%b ["jax_xc"; "libxc"]%b v2.
Definition v4 := moved ["src"]%b ["jax_xc"; "libxc"; "src"]%b v3.
Definition v5 := moved ["xc_version.h.in"]%b ["jax_xc"; "libxc"; "xc_version.h.in"]%b v4.
Definition seen (F : tree) (v : path -> option node) : Prop := forall q, look q F = v q.
Lemma seen_move a t F v : seen F v -> (forall r, v (t ++ r) = None) -> under a t = None -> under t a = None -> seen (move a t F) (moved a t v).
Proof. intros S N U V q. rewrite (look_move a t F q) by (assumption || (intros r; rewrite S; apply N)). unfold moved. rewrite !S. destruct (under t q); [apply S|]. destruct (under a q); reflexivity. Qed.
Lemma dir_seen F v p : seen F v -> v p = Some Dir -> is_dir p F = true.
Proof. intros S V. unfold is_dir. rewrite S, V. destruct p; reflexivity. Qed.
Lemma not_dir_seen F v p : seen F v -> p <> [] -> v p = None -> is_dir p F = false.
Proof. intros S N V. unfold is_dir. rewrite S, V. destruct p; [contradiction (N eq_refl)|reflexivity]. Qed.

Definition kept : list bstr := filter (fun f => negb (existsb (fun a => beqb a f) removed)) (ls ["src"]%b A).
Definition maple_listing : bstr -> list bstr := fun folder => ls ["maple"%b; folder] A.
Definition lists (F : tree) (src maple : path) : Prop := ls src F = kept /\ forall folder, ls (maple ++ [folder]) F = maple_listing folder.
Lemma lists_F1 : lists F1 ["src"]%b ["maple"]%b.
Proof.
  split.
  - unfold F1. rewrite ls_edit. unfold F0, removed. cbn [fold_left].
    repeat (match goal with |- context[delete ["src"%b; ?x] ?F] => change (delete ["src"%b; x] F) with (delete (["src"%b] ++ [x]) F) end; rewrite ls_delete).
    rewrite ls_put by reflexivity. unfold kept, removed. rewrite !filter_twice. apply filter_ext. intros f. cbn [existsb].
    destruct (beqb "xc-info.c" f), (beqb "xc-sanity.c" f), (beqb "xc-threshold.c" f), (beqb "test.c" f), (beqb "genwiki.c" f); reflexivity.
  - intros folder. unfold F1. rewrite ls_edit. unfold F0, removed. cbn [fold_left]. rewrite !ls_delete_other by reflexivity. apply ls_put. reflexivity.
Qed.
Lemma py_dir : v5 ["jax_xc"; "libxc"]%b = Some Dir. Proof. exact (rl_py _ _ _ RL). Qed.
Lemma free5 x r : In x ["src_cc"; "wrap.py"; "wrap.cc.jinja"; "gen_build.py"; "build.jinja"]%b -> v5 ("jax_xc" :: "libxc" :: x :: r)%b = None.
Proof.
  intros H. cbn [In] in H. destruct H as [<-|[<-|[<-|[<-|[<-|[]]]]]];
    match goal with |- v5 (_ :: _ :: ?x :: _) = _ => exact (free_py x r ltac:(cbn; tauto)) end.
Qed.
Lemma unpack_libxc_ok : exists F, unpack_libxc F1 = F /\ seen F v5 /\ lists F ["jax_xc"; "libxc"; "src"]%b ["maple"]%b.
Proof.
  unfold unpack_libxc. destruct lists_F1 as [S1 M1].
  assert (E2 : mkdir ["jax_xc"]%b F1 = (["jax_xc"]%b, Dir) :: F1).
  { unfold mkdir. rewrite look_F1. change (gone ["jax_xc"]%b) with false. cbv iota. change (look ["jax_xc"]%b A) with (look ("jax_xc"%b :: []) A).
    rewrite (free_top []). reflexivity. }
  rewrite E2. clear E2. set (F2 := (["jax_xc"]%b, Dir) :: F1).
  assert (V2 : seen F2 v2) by (intros q; unfold F2, v2, v1; cbn [look]; rewrite look_F1; reflexivity).
  assert (S2 : ls ["src"]%b F2 = kept) by exact S1. assert (M2 : forall folder, ls ["maple"%b; folder] F2 = maple_listing folder) by exact M1.
  clearbody F2.
  assert (N2 : forall r, v2 (["jax_xc"; "libxc"]%b ++ r) = None) by (intros r; exact (free_top ("libxc"%b :: r))).
  rewrite (mv_onto ["pylibxc"]%b ["jax_xc"; "libxc"]%b F2 Dir);
    [|apply (not_dir_seen F2 v2 _ V2); [discriminate|exact (N2 [])]|rewrite V2; exact (rl_py _ _ _ RL)|apply (dir_seen F2 v2 _ V2); reflexivity|reflexivity|rewrite V2; exact (N2 [])].
  set (F3 := move _ _ F2). assert (V3 : seen F3 v3) by (apply seen_move; [exact V2|exact N2|reflexivity|reflexivity]).
  assert (S3 : ls ["src"]%b F3 = kept) by (unfold F3; rewrite ls_move_other by (intros q; reflexivity); exact S2).
  assert (M3 : forall folder, ls ["maple"%b; folder] F3 = maple_listing folder) by (intros f; unfold F3; rewrite ls_move_other by (intros q; reflexivity); apply M2).
  clearbody F3.
  assert (N3 : forall r, v3 (["jax_xc"; "libxc"; "src"]%b ++ r) = None) by (intros r; exact (free_py "src"%b r ltac:(cbn; tauto))).
  rewrite (mv_into ["src"]%b ["jax_xc"; "libxc"]%b F3 Dir);
    [|apply (dir_seen F3 v3 _ V3); exact (rl_py _ _ _ RL)|rewrite V3; exact (rl_src _ _ _ RL)|reflexivity|rewrite V3; exact (N3 [])|discriminate].
  cbn [app last]. set (F4 := move _ _ F3). assert (V4 : seen F4 v4) by (apply seen_move; [exact V3|exact N3|reflexivity|reflexivity]).
  assert (S4 : ls ["jax_xc"; "libxc"; "src"]%b F4 = kept).
  { unfold F4. change (ls ["jax_xc"; "libxc"; "src"]%b) with (ls (["jax_xc"; "libxc"; "src"] ++ [])%b). rewrite ls_move by (intros r; rewrite V3; apply N3). exact S3. }
  assert (M4 : forall folder, ls ["maple"%b; folder] F4 = maple_listing folder) by (intros f; unfold F4; rewrite ls_move_other by (intros q; reflexivity); apply M3).
  clearbody F4. destruct (rl_version _ _ _ RL) as (v & Hv).
  assert (N4 : forall r, v4 (["jax_xc"; "libxc"; "xc_version.h.in"]%b ++ r) = None) by (intros r; exact (free_py "xc_version.h.in"%b r ltac:(cbn; tauto))).
  rewrite (mv_into ["xc_version.h.in"]%b ["jax_xc"; "libxc"]%b F4 (File v));
    [|apply (dir_seen F4 v4 _ V4); exact (rl_py _ _ _ RL)|rewrite V4; exact Hv|reflexivity|rewrite V4; exact (N4 [])|discriminate].
  eexists. split; [reflexivity|]. split; [apply seen_move; [exact V4|exact N4|reflexivity|reflexivity]|]. split.
  - rewrite ls_move_other by (intros q; reflexivity). exact S4.
  - intros f. cbn [app]. rewrite ls_move_other by (intros q; reflexivity). apply M4.
Qed.

(** Links and build file of libxc. *)
Definition L6 : tree := [
  (["jax_xc"; "libxc"; "build.jinja"], Link "gen_repo/libxc:build.jinja"); (["jax_xc"; "libxc"; "gen_build.py"], Link "gen_repo/libxc:gen_build.py");
  (["jax_xc"; "libxc"; "src_cc"; "libxc.cc"], Link "gen_repo/libxc:libxc.cc"); (["jax_xc"; "libxc"; "src_cc"; "register.h"], Link "gen_repo/libxc:register.h");
  (["jax_xc"; "libxc"; "src_cc"; "register.cc"], Link "gen_repo/libxc:register.cc"); (["jax_xc"; "libxc"; "src_cc"], Dir);
  (["jax_xc"; "libxc"; "wrap.cc.jinja"], Link "gen_repo/libxc:wrap.cc.jinja"); (["jax_xc"; "libxc"; "wrap.py"], Link "gen_repo/libxc:wrap.py")]%b.
Definition over (L : tree) (v : path -> option node) (q : path) : option node := match look q L with Some n => Some n | None => v q end.
Lemma seen_over L F v : seen F v -> seen (L ++ F) (over L v).
Proof. intros S q. rewrite look_app, S. reflexivity. Qed.
Lemma seen_put p n F v : seen F v -> seen (put p n F) (over [(p, n)] v).
Proof. intros S q. rewrite look_put, S. unfold over. cbn [look]. destruct (path_eqb p q); reflexivity. Qed.
Lemma libxc_ok F : seen F v5 -> lists F ["jax_xc"; "libxc"; "src"]%b ["maple"]%b ->
  symlinks libxc_links F = Ok (L6 ++ F) /\
  exists G, build_libxc (L6 ++ F) = Ok G /\ seen G (over [(["jax_xc"; "libxc"; "BUILD"]%b, Build (libxc_build kept))] (over L6 v5)) /\
    forall folder, ls ["maple"%b; folder] G = maple_listing folder.
Proof.
  intros V [S M]. assert (D0 : look ["jax_xc"]%b F = Some Dir) by (rewrite V; reflexivity).
  assert (D1 : look ["jax_xc"; "libxc"]%b F = Some Dir) by (rewrite V; exact py_dir).
  assert (N : forall x r, In x ["src_cc"; "wrap.py"; "wrap.cc.jinja"; "gen_build.py"; "build.jinja"]%b -> look ("jax_xc" :: "libxc" :: x :: r)%b F = None)
    by (intros x r H; rewrite V; apply free5, H).
  split.
  - unfold libxc_links. cbn [symlinks].
    rewrite link_ok by (exact (conj D0 (conj D1 I)) || exact (N "wrap.py"%b [] ltac:(cbn; tauto))). cbn [rbind].
    rewrite link_ok by (exact (conj D0 (conj D1 I)) || exact (N "wrap.cc.jinja"%b [] ltac:(cbn; tauto))). cbn [rbind].
    change ["jax_xc"; "libxc"; "src_cc"; "register.cc"]%b with (["jax_xc"; "libxc"] ++ ["src_cc"; "register.cc"])%b.
    rewrite link_new by (exact (conj D0 (conj D1 I)) || exact (N "src_cc"%b [] ltac:(cbn; tauto)) || exact (N "src_cc"%b ["register.cc"]%b ltac:(cbn; tauto))). cbn [rbind app].
    rewrite link_ok by (exact (conj D0 (conj D1 (conj eq_refl I))) || exact (N "src_cc"%b ["register.h"]%b ltac:(cbn; tauto))). cbn [rbind].
    rewrite link_ok by (exact (conj D0 (conj D1 (conj eq_refl I))) || exact (N "src_cc"%b ["libxc.cc"]%b ltac:(cbn; tauto))). cbn [rbind].
    rewrite link_ok by (exact (conj D0 (conj D1 I)) || exact (N "gen_build.py"%b [] ltac:(cbn; tauto))). cbn [rbind].
    rewrite link_ok by (exact (conj D0 (conj D1 I)) || exact (N "build.jinja"%b [] ltac:(cbn; tauto))). cbn [rbind]. reflexivity.
  - unfold build_libxc. erewrite generate_ok.
    + assert (K : ls ["jax_xc"; "libxc"; "src"]%b (L6 ++ F) = kept) by (rewrite ls_app; exact S). rewrite K. eexists. split; [reflexivity|]. split.
      * apply seen_put, seen_over, V.
      * intros f. rewrite ls_put by reflexivity. rewrite ls_app. exact (M f).
    + reflexivity.
    + reflexivity.
    + assert (B : look ["jax_xc"; "libxc"; "BUILD"]%b (L6 ++ F) = look ["pylibxc"; "BUILD"]%b A) by (transitivity (look ["jax_xc"; "libxc"; "BUILD"]%b F); [reflexivity|rewrite V; reflexivity]).
      rewrite B. exact (rl_build _ _ _ RL).
    + apply (dir_seen _ _ _ (seen_over L6 F v5 V)). exact py_dir.
Qed.

(** The folder of the formulas. *)
Definition v7 := over [(["jax_xc"; "libxc"; "BUILD"]%b, Build (libxc_build kept))] (over L6 v5).
Definition v8 := over [(["jax_xc"; "impl"]%b, Dir)] v7.
Definition v9 := moved ["maple"]%b ["jax_xc"; "impl"; "maple"]%b v8.
Definition L10 : tree := [
  (["jax_xc"; "impl"; "build.jinja"], Link "gen_repo/impl:build.jinja"); (["jax_xc"; "impl"; "python_template.jinja"], Link "gen_repo/impl:python_template.jinja");
  (["jax_xc"; "impl"; "utils.py"], Link "gen_repo/impl:utils.py"); (["jax_xc"; "impl"; "gen_py.py"], Link "gen_repo/impl:gen_py.py");
  (["jax_xc"; "impl"; "maple_template.jinja"], Link "gen_repo/impl:maple_template.jinja"); (["jax_xc"; "impl"; "gen_maple.py"], Link "gen_repo/impl:gen_maple.py");
  (["jax_xc"; "impl"; "gen_build.py"], Link "gen_repo/impl:gen_build.py"); (["jax_xc"; "impl"; "__init__.py"], Link "gen_repo/impl:__init__.py")]%b.
Definition v11 := over [(["jax_xc"; "impl"; "BUILD"]%b, Build (impl_build prebuilt maple_listing))] (over L10 v9).
Lemma unpack_impl_ok F : seen F v7 -> (forall folder, ls ["maple"%b; folder] F = maple_listing folder) ->
  exists G, unpack_impl F = G /\ seen G v9 /\ forall folder, ls ["jax_xc"; "impl"; "maple"; folder]%b G = maple_listing folder.
Proof.
  intros V M. unfold unpack_impl.
  assert (N : forall r, v7 ("jax_xc" :: "impl" :: r)%b = None) by (intros r; exact (free_top ("impl"%b :: r))).
  assert (E : mkdir_p ["jax_xc"; "impl"]%b F = (["jax_xc"; "impl"]%b, Dir) :: F).
  { unfold mkdir_p. change ["jax_xc"; "impl"]%b with (["jax_xc"] ++ ["impl"])%b. rewrite (mkdirs_last F "impl"%b ["jax_xc"]%b []); [reflexivity| |].
    - split; [|exact I]. rewrite V. reflexivity.
    - cbn [app]. rewrite V. apply N. }
  rewrite E. clear E. set (G := (["jax_xc"; "impl"]%b, Dir) :: F). assert (W : seen G v8) by (exact (seen_over [(["jax_xc"; "impl"]%b, Dir)] F v7 V)).
  assert (MG : forall folder, ls ["maple"%b; folder] G = maple_listing folder) by exact M. clearbody G.
  assert (N8 : forall r, v8 (["jax_xc"; "impl"; "maple"]%b ++ r) = None) by (intros r; exact (free_top ("impl" :: "maple" :: r)%b)).
  rewrite (mv_into ["maple"]%b ["jax_xc"; "impl"]%b G Dir);
    [|apply (dir_seen G v8 _ W); reflexivity|rewrite W; exact (rl_maple _ _ _ RL)|reflexivity|rewrite W; exact (N8 [])|discriminate].
  cbn [app last]. eexists. split; [reflexivity|]. split; [apply seen_move; [exact W|exact N8|reflexivity|reflexivity]|].
  intros f. change ["jax_xc"; "impl"; "maple"; f]%b with (["jax_xc"; "impl"; "maple"] ++ [f])%b. rewrite ls_move by (intros r; rewrite W; apply N8). apply MG.
Qed.
Lemma impl_ok F : seen F v9 -> (forall folder, ls ["jax_xc"; "impl"; "maple"; folder]%b F = maple_listing folder) ->
  symlinks impl_links F = Ok (L10 ++ F) /\ exists G, build_impl prebuilt (L10 ++ F) = Ok G /\ seen G v11.
Proof.
  intros V M. assert (D0 : look ["jax_xc"]%b F = Some Dir) by (rewrite V; reflexivity).
  assert (D1 : look ["jax_xc"; "impl"]%b F = Some Dir) by (rewrite V; reflexivity).
  assert (N : forall x, beqb "maple" x = false -> look ["jax_xc"; "impl"; x]%b F = None).
  { intros x H. rewrite V. transitivity (look ["jax_xc"; "impl"; x]%b A); [|apply free_top]. unfold v9, moved. cbn [under].
    change (beqb "jax_xc" "jax_xc") with true. change (beqb "impl" "impl") with true. cbv iota. rewrite H. reflexivity. }
  split.
  - unfold impl_links. cbn [symlinks].
    repeat (rewrite link_ok; [cbn [rbind]|exact (conj D0 (conj D1 I))|match goal with |- look [_; _; ?x] _ = None => exact (N x eq_refl) end]). reflexivity.
  - unfold build_impl. erewrite generate_ok.
    + eexists. split; [reflexivity|]. assert (K : impl_build prebuilt (fun folder => ls ["jax_xc"; "impl"; "maple"; folder]%b (L10 ++ F)) = impl_build prebuilt maple_listing).
      { unfold impl_build. assert (Q : names_and_maple_files (fun folder => ls ["jax_xc"; "impl"; "maple"; folder]%b (L10 ++ F)) = names_and_maple_files maple_listing).
        { unfold names_and_maple_files. apply flat_map_ext. intros f. f_equal. f_equal. rewrite ls_app. exact (M f). }
        rewrite Q. reflexivity. }
      rewrite K. apply seen_put, seen_over, V.
    + reflexivity.
    + reflexivity.
    + assert (B : look ["jax_xc"; "impl"; "BUILD"]%b (L10 ++ F) = None) by exact (N "BUILD"%b eq_refl). rewrite B. discriminate.
    + apply (dir_seen _ _ _ (seen_over L10 F v9 V)). reflexivity.
Qed.

(** The top folder. *)
Definition L12 : tree := [
  (["BUILD"], Link "gen_repo:wheel.BUILD"); (["jax_xc"; "experimental.jinja"], Link "gen_repo:experimental.jinja");
  (["jax_xc"; "python_template.jinja"], Link "gen_repo:python_template.jinja"); (["jax_xc"; "utils.py"], Link "gen_repo:utils.py");
  (["jax_xc"; "gen_py.py"], Link "gen_repo:gen_py.py"); (["jax_xc"; "__init__.py"], Link "gen_repo:__init__.py"); (["jax_xc"; "BUILD"], Link "gen_repo:build.jinja")]%b.
Definition v12 := over L12 v11.
Lemma top_ok F : seen F v11 -> symlinks top_links F = Ok (L12 ++ F).
Proof.
  intros V. assert (D0 : look ["jax_xc"]%b F = Some Dir) by (rewrite V; reflexivity).
  assert (B : look ["BUILD"]%b F = None) by (rewrite V; exact (proj2 (rl_top _ _ _ RL))).
  unfold top_links. cbn [symlinks].
  repeat (rewrite link_ok; [cbn [rbind]|exact (conj D0 I)|match goal with |- look [_; ?x] (_ ++ _) = None => idtac | |- look [_; ?x] _ = None =>
    transitivity (look ["jax_xc"%b; x] F); [reflexivity|rewrite V; exact (free_top [x])] end]).
  rewrite link_ok; [reflexivity|exact I|exact B].
Qed.
Theorem gen_repo_seen : exists F, gen_repo os prebuilt edits A = Ok F /\ seen F v12.
Proof.
  unfold gen_repo. rewrite prepare_ok. cbn [rbind]. destruct unpack_libxc_ok as (F5 & -> & V5 & M5).
  destruct (libxc_ok F5 V5 M5) as (-> & F7 & E7 & V7 & M7). cbn [rbind]. rewrite E7. cbn [rbind].
  destruct (unpack_impl_ok F7 V7 M7) as (F9 & -> & V9 & M9). destruct (impl_ok F9 V9 M9) as (-> & F11 & E11 & V11). cbn [rbind]. rewrite E11. cbn [rbind].
  rewrite (top_ok F11 V11). eexists. split; [reflexivity|]. apply seen_over, V11.
Qed.

(** What is found in the tree. *)
Lemma final_link p l : In (p, Link l) (L12 ++ L10 ++ L6) -> v12 p = Some (Link l).
Proof. intros H. cbn [L12 L10 L6 app In] in H. repeat (destruct H as [H|H]; [inversion H; reflexivity|]). contradiction. Qed.
Lemma final_src x r : v12 ("jax_xc" :: "libxc" :: "src" :: x :: r)%b = if existsb (fun a => beqb a x) removed then None else look ("src"%b :: x :: r) A.
Proof. reflexivity. Qed.
Lemma final_maple r : v12 ("jax_xc" :: "impl" :: "maple" :: r)%b = look ("maple"%b :: r) A.
Proof. destruct r; reflexivity. Qed.
Lemma final_version r : v12 ("jax_xc" :: "libxc" :: "xc_version.h.in" :: r)%b = look ("xc_version.h.in"%b :: r) A.
Proof. destruct r; reflexivity. Qed.
Lemma final_builds : v12 ["jax_xc"; "libxc"; "BUILD"]%b = Some (Build (libxc_build kept)) /\
  v12 ["jax_xc"; "impl"; "BUILD"]%b = Some (Build (impl_build prebuilt maple_listing)).
Proof. split; reflexivity. Qed.
Lemma final_core : v12 ["jax_xc"; "libxc"; "core.py"]%b = Some (File c').
Proof. reflexivity. Qed.
Lemma beqb_no x y : x <> y -> beqb x y = false.
Proof. intros N. destruct (beqb x y) eqn:E; [apply beqb_eq in E; contradiction|reflexivity]. Qed.
Ltac no := repeat match goal with H : ~ In ?x (?a :: ?l) |- _ =>
  let H1 := fresh "K" in assert (H1 : beqb a x = false) by (apply beqb_no; intros E; apply H; left; exact E);
  assert (~ In x l) by (intros E; apply H; right; exact E); clear H end.
Lemma final_py x r : ~ In x ["BUILD"; "build.jinja"; "gen_build.py"; "src_cc"; "wrap.cc.jinja"; "wrap.py"; "src"; "xc_version.h.in"; "core.py"]%b ->
  v12 ("jax_xc" :: "libxc" :: x :: r)%b = look ("pylibxc"%b :: x :: r) A.
Proof.
  intros H. no. transitivity (v7 ("jax_xc" :: "libxc" :: x :: r)%b); [reflexivity|]. unfold v7, over.
  assert (E6 : look ("jax_xc" :: "libxc" :: x :: r)%b L6 = None) by (unfold L6; cbn [look path_eqb]; rewrite K0, K1, K2, K3, K4; reflexivity).
  assert (E7 : look ("jax_xc" :: "libxc" :: x :: r)%b [(["jax_xc"; "libxc"; "BUILD"]%b, Build (libxc_build kept))] = None) by (cbn [look path_eqb]; rewrite K; reflexivity).
  rewrite E7, E6. unfold v5, moved at 1. assert (U5 : under ["jax_xc"; "libxc"; "xc_version.h.in"]%b ("jax_xc" :: "libxc" :: x :: r)%b = None) by (cbn [under]; rewrite K6; reflexivity).
  rewrite U5. transitivity (v4 ("jax_xc" :: "libxc" :: x :: r)%b); [reflexivity|]. unfold v4, moved at 1.
  assert (U4 : under ["jax_xc"; "libxc"; "src"]%b ("jax_xc" :: "libxc" :: x :: r)%b = None) by (cbn [under]; rewrite K5; reflexivity).
  rewrite U4. transitivity (v1 ("pylibxc" :: x :: r)%b); [reflexivity|]. unfold v1.
  assert (U1 : path_eqb ["pylibxc"; "core.py"]%b ("pylibxc" :: x :: r)%b = false) by (cbn [path_eqb]; rewrite K7; reflexivity).
  rewrite U1. reflexivity.
Qed.
Lemma final_moved x r : In x ["src"; "pylibxc"; "maple"; "xc_version.h.in"]%b -> v12 (x :: r) = None.
Proof. intros H. cbn [In] in H. destruct H as [<-|[<-|[<-|[<-|[]]]]]; reflexivity. Qed.
Lemma final_other x r : ~ In x ["jax_xc"; "BUILD"; "WORKSPACE"; "src"; "pylibxc"; "maple"; "xc_version.h.in"]%b -> v12 (x :: r) = look (x :: r) A.
Proof.
  intros H. no. unfold v12, v11, v9, v8, v7, v5, v4, v3, v2, v1, over, moved, L12, L10, L6. cbn [look path_eqb under app gone].
  rewrite K, K0, K1, K2, K3, K4, K5. cbn [andb]. destruct r; cbv iota; cbn [andb]; rewrite ?K2; reflexivity.
Qed.
End Rule.

Lemma ls_look x p F : In x (ls p F) <-> look (p ++ [x]) F <> None.
Proof.
  induction F as [|[q n] F IH]; cbn [look]; [split; [intros []|congruence]|].
  unfold ls in *. cbn [flat_map fst]. rewrite in_app_iff, IH. unfold entry at 1.
  destruct (path_eqb q (p ++ [x])) eqn:E.
  - apply path_eqb_eq in E. subst q. rewrite under_self. split; [discriminate|intros _; left; left; reflexivity].
  - split; [intros [H|H]; [|exact H]|intros H; right; exact H]. exfalso. destruct (under p q) as [[|y [|z u]]|] eqn:U; try contradiction.
    destruct H as [->|[]]. apply under_app in U. subst q. rewrite path_eqb_refl in E. discriminate.
Qed.

(** ** Final statements *)
Definition installed : list (path * bstr) := [
  (["BUILD"], "gen_repo:wheel.BUILD");
  (["jax_xc"; "BUILD"], "gen_repo:build.jinja"); (["jax_xc"; "__init__.py"], "gen_repo:__init__.py"); (["jax_xc"; "gen_py.py"], "gen_repo:gen_py.py");
  (["jax_xc"; "utils.py"], "gen_repo:utils.py"); (["jax_xc"; "python_template.jinja"], "gen_repo:python_template.jinja");
  (["jax_xc"; "experimental.jinja"], "gen_repo:experimental.jinja");
  (["jax_xc"; "libxc"; "wrap.py"], "gen_repo/libxc:wrap.py"); (["jax_xc"; "libxc"; "wrap.cc.jinja"], "gen_repo/libxc:wrap.cc.jinja");
  (["jax_xc"; "libxc"; "src_cc"; "register.cc"], "gen_repo/libxc:register.cc"); (["jax_xc"; "libxc"; "src_cc"; "register.h"], "gen_repo/libxc:register.h");
  (["jax_xc"; "libxc"; "src_cc"; "libxc.cc"], "gen_repo/libxc:libxc.cc");
  (["jax_xc"; "impl"; "__init__.py"], "gen_repo/impl:__init__.py"); (["jax_xc"; "impl"; "gen_maple.py"], "gen_repo/impl:gen_maple.py");
  (["jax_xc"; "impl"; "maple_template.jinja"], "gen_repo/impl:maple_template.jinja"); (["jax_xc"; "impl"; "gen_py.py"], "gen_repo/impl:gen_py.py");
  (["jax_xc"; "impl"; "utils.py"], "gen_repo/impl:utils.py"); (["jax_xc"; "impl"; "python_template.jinja"], "gen_repo/impl:python_template.jinja")]%b.
Definition dropped (x : bstr) : Prop := In x ["xc-info.c"; "xc-sanity.c"; "xc-threshold.c"; "test.c"; "genwiki.c"]%b.
Lemma dropped_spec x : dropped x <-> existsb (fun a => beqb a x) removed = true.
Proof.
  unfold dropped. change ["xc-info.c"; "xc-sanity.c"; "xc-threshold.c"; "test.c"; "genwiki.c"]%b with removed. rewrite existsb_exists. split.
  - intros H. exists x. split; [exact H|apply beqb_eq; reflexivity].
  - intros (a & H & E). apply beqb_eq in E. subst a. exact H.
Qed.
Theorem gen_repo_ok os prebuilt edits A : releasable os edits A -> exists F,
  gen_repo os prebuilt edits A = Ok F /\
  (forall p l, In (p, l) installed -> look p F = Some (Link l)) /\
  (forall x r, dropped x -> look ("jax_xc" :: "libxc" :: "src" :: x :: r)%b F = None) /\
  (forall x r, ~ dropped x -> look ("jax_xc" :: "libxc" :: "src" :: x :: r)%b F = look ("src"%b :: x :: r) A) /\
  (forall r, look ("jax_xc" :: "impl" :: "maple" :: r)%b F = look ("maple"%b :: r) A) /\
  look ["jax_xc"; "libxc"; "xc_version.h.in"]%b F = look ["xc_version.h.in"]%b A /\
  (forall c c', look ["pylibxc"; "core.py"]%b A = Some (File c) -> edits (patch_label os) c = Some c' -> look ["jax_xc"; "libxc"; "core.py"]%b F = Some (File c')) /\
  (forall x r, ~ In x ["BUILD"; "build.jinja"; "gen_build.py"; "src_cc"; "wrap.cc.jinja"; "wrap.py"; "src"; "xc_version.h.in"; "core.py"]%b ->
     look ("jax_xc" :: "libxc" :: x :: r)%b F = look ("pylibxc"%b :: x :: r) A) /\
  (forall x r, In x ["src"; "pylibxc"; "maple"; "xc_version.h.in"]%b -> look (x :: r) F = None) /\
  (forall x r, ~ In x ["jax_xc"; "BUILD"; "WORKSPACE"; "src"; "pylibxc"; "maple"; "xc_version.h.in"]%b -> look (x :: r) F = look (x :: r) A).
Proof.
  intros RL. destruct (rl_core _ _ _ RL) as (c & c' & Hc & He).
  destruct (gen_repo_seen os prebuilt edits A c c' RL Hc He) as (F & E & V). exists F. split; [exact E|].
  split; [|split; [|split; [|split; [|split; [|split; [|split; [|split]]]]]]].
  - intros p l H. rewrite V. apply (final_link prebuilt A c'). unfold installed in H. cbn [In] in H. cbn [L12 L10 L6 app In].
    repeat (destruct H as [H|H]; [inversion H; tauto|]). contradiction.
  - intros x r H. rewrite V, (final_src prebuilt A c'). apply dropped_spec in H. rewrite H. reflexivity.
  - intros x r H. rewrite V, (final_src prebuilt A c'). rewrite dropped_spec in H. destruct (existsb _ _); [contradiction (H eq_refl)|reflexivity].
  - intros r. rewrite V. apply final_maple.
  - rewrite V. apply (final_version prebuilt A c' []).
  - intros d d' Hd Hd'. rewrite Hc in Hd. injection Hd as <-. rewrite He in Hd'. injection Hd' as <-. rewrite V. apply final_core.
  - intros x r H. rewrite V. apply final_py, H.
  - intros x r H. rewrite V. apply final_moved, H.
  - intros x r H. rewrite V. apply final_other, H.
Qed.
(** The rules that wrap a C file are those of the files the archive has, and every such file is there. *)
Lemma wrap_rule_in src f : In (Rule ("gen_" +++ f +++ "c")%b ["src/" +++ f]%b ["src_cc/" +++ f +++ "c"]%b) (libxc_build src) <-> In f (c_file_basenames src).
Proof.
  split; [|intros H; apply (libxc_linked src f H)]. unfold libxc_build. rewrite in_app_iff, in_flat_map. intros [H|(g & Hg & H)].
  - cbn [fixed_libxc In] in H. repeat (destruct H as [H|H]; [discriminate H|]). contradiction.
  - cbn [wrap_rules In] in H. destruct H as [H|[H|[]]].
    + injection H as _ H _. subst g. exact Hg.
    + discriminate H.
Qed.
Theorem gen_repo_builds os prebuilt edits A : releasable os edits A -> exists F rules mods,
  gen_repo os prebuilt edits A = Ok F /\
  look ["jax_xc"; "libxc"; "BUILD"]%b F = Some (Build rules) /\ look ["jax_xc"; "impl"; "BUILD"]%b F = Some (Build mods) /\
  (forall f, In (Rule ("gen_" +++ f +++ "c")%b ["src/" +++ f]%b ["src_cc/" +++ f +++ "c"]%b) rules <->
     look ["jax_xc"; "libxc"; "src"; f]%b F <> None /\ (exists n, f = n +++ ".c"%b) /\ bprefix "." f = false /\ bprefix "funcs_" f = false /\ bprefix "work_" f = false) /\
  (forall folder n, In folder ["lda_exc"; "gga_exc"; "mgga_exc"; "lda_vxc"; "gga_vxc"; "mgga_vxc"]%b -> n <> bnil -> (forall a b, n <> a +++ bcons "."%byte b) ->
     look ["jax_xc"; "impl"; "maple"; folder; n +++ ".mpl"]%b F <> None ->
     In (Rule (n +++ "_gen_py") ["pol/" +++ n +++ ".py"; "unpol/" +++ n +++ ".py"] [n +++ ".py"])%b mods).
Proof.
  intros RL. destruct (rl_core _ _ _ RL) as (c & c' & Hc & He).
  destruct (gen_repo_seen os prebuilt edits A c c' RL Hc He) as (F & E & V).
  exists F, (libxc_build (kept A)), (impl_build prebuilt (maple_listing A)). split; [exact E|].
  split; [rewrite V; apply final_builds|]. split; [rewrite V; apply final_builds|]. split.
  - intros f. rewrite wrap_rule_in, libxc_wrapped. unfold kept. rewrite filter_In, ls_look, V, (final_src prebuilt A c'). cbn [app].
    destruct (existsb _ _); cbn [negb]; [|tauto]. split; [intros ((_ & H) & _); discriminate H|intros (H & _); contradiction (H eq_refl)].
  - intros folder n Hf Hn Hd H. apply (module_rule_in prebuilt (maple_listing A) n). apply in_map_iff. eexists. split; [|apply (maple_file_listed _ folder n Hf Hn Hd)]; [reflexivity|].
    unfold maple_listing. apply ls_look. rewrite V in H. change ["jax_xc"; "impl"; "maple"; folder; n +++ ".mpl"]%b with (["jax_xc"; "impl"; "maple"]%b ++ [folder; n +++ ".mpl"%b]) in H.
    cbn [app] in H. rewrite final_maple in H. exact H.
Qed.
(** Every label the rule asks for is resolved before the download. *)
Theorem labels_prefetched os : (forall l p, In (l, p) (libxc_links ++ impl_links ++ top_links) -> In l prefetched) /\ In (patch_label os) prefetched.
Proof.
  split.
  - assert (H : forallb (fun lp => existsb (fun l => beqb l (fst lp)) prefetched) (libxc_links ++ impl_links ++ top_links) = true) by (vm_compute; reflexivity).
    intros l p Hl. rewrite forallb_forall in H. specialize (H _ Hl). apply existsb_exists in H. destruct H as (m & Hm & E). apply beqb_eq in E. cbn in E. subst m. exact Hm.
  - unfold patch_label. destruct (contains "win" os); unfold prefetched; cbn [In]; tauto.
Qed.
Lemma contains_spec sub s : contains sub s = true <-> exists a b, s = a +++ sub +++ b.
Proof.
  induction s as [|x s IH]; cbn [contains]; rewrite orb_true_iff.
  - split.
    + intros [H|H]; [|discriminate H]. unfold bprefix in H. destruct (bstrip sub bnil) as [t|] eqn:E; [|discriminate H]. apply bstrip_app in E. exists bnil, t. exact E.
    + intros (a & b & H). left. destruct a; [|discriminate H]. cbn [bapp] in H. rewrite H. apply bprefix_app.
  - rewrite IH. split.
    + intros [H|(a & b & ->)].
      * unfold bprefix in H. destruct (bstrip sub (bcons x s)) as [t|] eqn:E; [|discriminate H]. apply bstrip_app in E. exists bnil, t. exact E.
      * exists (bcons x a), b. reflexivity.
    + intros ([|y a] & b & H).
      * left. cbn [bapp] in H. rewrite H. apply bprefix_app.
      * right. cbn [bapp] in H. injection H as -> ->. exists a, b. reflexivity.
Qed.
Theorem patch_choice os : ((exists a b, os = a +++ "win"%b +++ b) -> patch_label os = "gen_repo/libxc:windows.patch"%b) /\
  (~ (exists a b, os = a +++ "win"%b +++ b) -> patch_label os = "gen_repo/libxc:so_naming.patch"%b).
Proof.
  unfold patch_label. split; intros H.
  - apply contains_spec in H. rewrite H. reflexivity.
  - destruct (contains "win" os) eqn:E; [apply contains_spec in E; contradiction|reflexivity].
Qed.

(** ** Tags *)
Definition one_line (s : bstr) : Prop := forall a c b, s = a +++ bcons c b -> c <> "010"%byte /\ c <> "013"%byte.
Lemma until_eol_line s : one_line s -> forall t, until_eol (s +++ newline +++ t) = s.
Proof.
  induction s as [|c s IH]; intros H t; [reflexivity|]. cbn [bapp until_eol]. destruct (H bnil c s eq_refl) as [N1 N2].
  destruct (Byte.eqb c "010") eqn:E1; [apply byte_eqb_eq in E1; contradiction|]. destruct (Byte.eqb c "013") eqn:E2; [apply byte_eqb_eq in E2; contradiction|].
  cbn [orb]. f_equal. apply IH. intros a d b E. apply (H (bcons c a) d b). rewrite E. reflexivity.
Qed.
Lemma app_split a : forall s t c b, s +++ t = a +++ bcons c b -> (exists b', s = a +++ bcons c b') \/ (exists a', t = a' +++ bcons c b).
Proof.
  induction a as [|x a IH]; intros [|y s] t c b E; cbn [bapp] in E.
  - right. exists bnil. exact E.
  - injection E as -> E. left. exists s. reflexivity.
  - right. exists (bcons x a). exact E.
  - injection E as -> E. destruct (IH s t c b E) as [(b' & ->)|(a' & ->)]; [left; exists b'; reflexivity|right; exists a'; reflexivity].
Qed.
Lemma one_line_app s t : one_line s -> one_line t -> one_line (s +++ t).
Proof. intros S T a c b E. apply app_split in E. destruct E as [(b' & E)|(a' & E)]; [exact (S _ _ _ E)|exact (T _ _ _ E)]. Qed.
Lemma one_line_cp : one_line "cp".
Proof.
  intros [|x [|y [|z a]]] c b E; cbn [bapp] in E; try discriminate E; inversion E; subst; split; discriminate.
Qed.
Theorem abi_declared version h bin i major minor rest : In version ["2"; "3"]%b ->
  (h_bin h = Some bin \/ h_bin h = None /\ h_which h ("python" +++ version)%b = Some bin) ->
  h_run h bin = Some i -> i_implementation i = "CPython"%b -> i_version i = major :: minor :: rest -> one_line major -> one_line minor ->
  (forall f, i_abiflags i = Some f -> one_line f) ->
  let tag := ("cp" +++ major +++ minor)%b in
  declare_python_abi version h = Ok [("BUILD"%b, bnil); ("abi.bzl"%b, abi_bzl tag (tag +++ match i_abiflags i with Some f => f | None => bnil end))].
Proof.
  intros Hv Hb Hr Hi Hn L1 L2 L3. cbv zeta. unfold declare_python_abi.
  assert (G : get_python_bin version h = Ok bin).
  { unfold get_python_bin. assert (E : negb (beqb version "2") && negb (beqb version "3") = false) by (destruct Hv as [<-|[<-|[]]]; reflexivity). rewrite E.
    destruct Hb as [->|[-> ->]]; reflexivity. }
  rewrite G. cbn [rbind]. assert (T : get_python_tag h bin = Ok ("cp" +++ major +++ minor)%b).
  { unfold get_python_tag, tag_script. rewrite Hr, Hi, Hn. change (beqb "CPython" "CPython") with true. cbv iota. unfold first_line.
    change ("cp" +++ major +++ minor +++ newline)%b with (bcons "c" (bcons "p" (major +++ minor +++ newline)))%byte at 1. cbv iota. do 2 f_equal.
    rewrite <- (until_eol_line ("cp" +++ major +++ minor)%b) with (t := bnil) by (apply one_line_app; [exact one_line_cp|apply one_line_app; assumption]).
    rewrite !bapp_assoc. reflexivity. }
  rewrite T. cbn [rbind]. assert (B : get_abi_tag h bin = Ok (("cp" +++ major +++ minor) +++ match i_abiflags i with Some f => f | None => bnil end)%b).
  { unfold get_abi_tag, abi_script. rewrite Hr, Hi, Hn. change (beqb "CPython" "CPython") with true. cbv iota. destruct (i_abiflags i) as [f|].
    - unfold first_line. change ("cp" +++ major +++ minor +++ f +++ newline)%b with (bcons "c" (bcons "p" (major +++ minor +++ f +++ newline)))%byte at 1. cbv iota. do 2 f_equal.
      rewrite <- (until_eol_line (("cp" +++ major +++ minor) +++ f)%b) with (t := bnil)
        by (apply one_line_app; [apply one_line_app; [exact one_line_cp|apply one_line_app; assumption]|exact (L3 f eq_refl)]).
      rewrite !bapp_assoc. reflexivity.
    - cbn [first_line]. rewrite T. f_equal. rewrite bapp_nil_r. reflexivity. }
  rewrite B. reflexivity.
Qed.
Theorem abi_needs version h files : declare_python_abi version h = Ok files -> In version ["2"; "3"]%b /\
  exists bin i, (h_bin h = Some bin \/ h_bin h = None /\ h_which h ("python" +++ version)%b = Some bin) /\ h_run h bin = Some i /\ i_implementation i = "CPython"%b.
Proof.
  unfold declare_python_abi. destruct (get_python_bin version h) as [bin|] eqn:G; [|discriminate]. cbn [rbind].
  destruct (get_python_tag h bin) as [t|] eqn:T; [|discriminate]. intros _. unfold get_python_bin in G.
  destruct (negb (beqb version "2") && negb (beqb version "3")) eqn:E; [discriminate G|]. split.
  { apply andb_false_iff in E. destruct E as [E|E]; apply negb_false_iff, beqb_eq in E; subst version; cbn [In]; tauto. }
  unfold get_python_tag, tag_script in T. destruct (h_run h bin) as [i|] eqn:R; [|discriminate T]. exists bin, i. split; [|split; [exact R|]].
  - destruct (h_bin h) as [b|]; [left; congruence|]. right. split; [reflexivity|]. destruct (h_which h _) as [b|]; congruence.
  - destruct (beqb (i_implementation i) "CPython") eqn:C; [apply beqb_eq, C|discriminate T].
Qed.

(** ** The generator that no rule runs *)
Theorem top_listing_agrees ls :
  (forall folder g, In folder folders -> In g (ls folder) -> ends_with ".mpl" g = true -> exists m, g = m +++ ".mpl"%b /\ m <> bnil /\ forall a b, m <> a +++ bcons "."%byte b) ->
  top_names_and_maple_files ls = names_and_maple_files ls.
Proof.
  intros H. unfold top_names_and_maple_files, names_and_maple_files. rewrite !flat_map_concat_map. f_equal. apply map_ext_in. intros folder Hf.
  specialize (H folder). revert H. generalize (ls folder). intros l H. assert (K : forall g, In g l -> ends_with ".mpl" g = true -> exists m, g = m +++ ".mpl"%b /\ m <> bnil /\ forall a b, m <> a +++ bcons "."%byte b) by (intros g; apply H, Hf). clear H.
  induction l as [|g l IH]; [reflexivity|]. assert (IH' := IH (fun g Hg => K g (or_intror Hg))). cbn [filter]. unfold glob_ext at 1.
  destruct (ends_with ".mpl" g) eqn:E; [|rewrite andb_false_r; exact IH']. destruct (K g (or_introl eq_refl) E) as (m & -> & Hm & Hd).
  assert (D : bprefix "." (m +++ ".mpl"%b) = false).
  { destruct m as [|c m]; [contradiction (Hm eq_refl)|]. unfold bprefix. cbn [bapp bstrip]. destruct (Byte.eqb "." c) eqn:C; [|reflexivity]. apply byte_eqb_eq in C. subst c. elim (Hd bnil m). reflexivity. }
  rewrite D. cbn [negb andb map]. rewrite IH', until_dot_ext by exact Hd. reflexivity.
Qed.

(** ** A small archive, and one without formulas *)
Lemma archive_check A : look [] A = None -> forallb (fun e => is_dir (removelast (fst e)) A) A = true -> archive A.
Proof.
  intros N H. split; [exact N|]. intros p x n E. rewrite forallb_forall in H. apply look_in in E. specialize (H _ E). cbn [fst] in H. rewrite removelast_last in H. exact H.
Qed.
Definition release (formulas : bool) : tree := ([
  (["README"], File "libxc"); (["src"], Dir); (["src"; "lda_x.c"], File "a"); (["src"; "test.c"], File "b"); (["src"; "work_lda.c"], File "c"); (["src"; "maple2c"], Dir);
  (["src"; "maple2c"; "lda_x.c"], File "d"); (["pylibxc"], Dir); (["pylibxc"; "core.py"], File "e"); (["pylibxc"; "util.py"], File "f"); (["xc_version.h.in"], File "g")] ++
  if formulas then [(["maple"], Dir); (["maple"; "lda_exc"], Dir); (["maple"; "lda_exc"; "lda_x.mpl"], File "h")] else [])%b.
Definition named (label content : bstr) : option bstr := if beqb content "e" then Some label else None.
Lemma no_formulas : exists A F mods, look ["maple"]%b A = None /\
  gen_repo "linux" false named A = Ok F /\ look ["jax_xc"; "impl"; "BUILD"]%b F = Some (Build mods) /\
  forall n, ~ In (Rule (n +++ "_gen_py") ["pol/" +++ n +++ ".py"; "unpol/" +++ n +++ ".py"] [n +++ ".py"])%b mods.
Proof.
  exists (release false). eexists. eexists. split; [reflexivity|]. split; [vm_compute; reflexivity|]. split; [vm_compute; reflexivity|].
  intros n H. cbn [In] in H. repeat (destruct H as [H|H]; [discriminate H|]). exact H.
Qed.
