(** The wrapper generator on files in libxc's layout. *)
From Coq Require Import Strings.Byte List Bool Arith Lia.
From Verif Require Import Bytes Parser PostFast Impl Records Literals Wrap.
Import ListNotations.

(** ** Occurrences *)
Definition absent (p s : bstr) : Prop := forall u v, s <> u +++ p +++ v.
Fixpoint btake (n : nat) (s : bstr) : bstr := match n, s with S n, bcons b s => bcons b (btake n s) | _, _ => bnil end.
Fixpoint bdrop (n : nat) (s : bstr) : bstr := match n, s with S n, bcons b s => bdrop n s | _, _ => s end.
(** No proper suffix of [p] is a prefix of [p]. *)
Definition borderless (p : bstr) : bool :=
  forallb (fun n => negb (beqb (bdrop (blen p - n) p) (btake n p))) (List.seq 1 (blen p - 1)).

Lemma bstrip_self p s : bstrip p (p +++ s) = Some s. Proof. apply bstrip_app. reflexivity. Qed.
Lemma absent_nil p : p <> bnil -> absent p bnil.
Proof. intros H u v E. destruct u; [|discriminate]. cbn in E. destruct p; [congruence|discriminate]. Qed.
Lemma absent_cons p b s : absent p (bcons b s) -> absent p s.
Proof. intros H u v E. apply (H (bcons b u) v). cbn. rewrite E. reflexivity. Qed.
Lemma absent_strip p s : absent p s -> bstrip p s = None.
Proof. intros H. destruct (bstrip p s) eqn:E; [|reflexivity]. apply bstrip_app in E. exfalso. apply (H bnil b). exact E. Qed.
Lemma absent_app_r p s t : absent p (s +++ t) -> absent p t.
Proof. intros H u v E. apply (H (s +++ u) v). rewrite E, bapp_assoc. reflexivity. Qed.
Lemma absent_app_l p s t : absent p (s +++ t) -> absent p s.
Proof. intros H u v E. apply (H u (v +++ t)). rewrite E, !bapp_assoc. reflexivity. Qed.
Lemma app_split a : forall b c d, a +++ b = c +++ d -> blen c <= blen a -> exists x, a = c +++ x /\ d = x +++ b.
Proof.
  induction a as [|y a IH]; intros b c d E L; destruct c as [|z c]; cbn in *; try lia.
  - exists bnil. auto.
  - exists (bcons y a). auto.
  - injection E as -> E. destruct (IH _ _ _ E) as (x & -> & ->); [lia|]. exists x. auto.
Qed.
Lemma btake_app a b : btake (blen a) (a +++ b) = a. Proof. induction a; cbn; congruence. Qed.
Lemma bdrop_app a b : bdrop (blen a) (a +++ b) = b. Proof. induction a; cbn; auto. Qed.
(** Before the text [p], an occurrence of [p] not inside [g] is that text. *)
Lemma first_occurrence p g u v w : borderless p = true -> absent p g -> g +++ p +++ w = u +++ p +++ v -> blen g <= blen u.
Proof.
  intros B A E. destruct (le_lt_dec (blen g) (blen u)) as [L|L]; [exact L|exfalso].
  destruct (app_split _ _ _ _ E) as (x & -> & E2); [lia|].
  destruct (le_lt_dec (blen p) (blen x)) as [L2|L2].
  - symmetry in E2. destruct (app_split _ _ _ _ E2) as (y & -> & _); [exact L2|]. apply (A u y). reflexivity.
  - destruct (app_split _ _ _ _ E2) as (y & Ep & E3); [lia|].
    rewrite blen_app in L. assert (Lx : 0 < blen x) by lia.
    assert (Ly : 0 < blen y) by (apply (f_equal blen) in Ep; rewrite blen_app in Ep; lia).
    unfold borderless in B. rewrite forallb_forall in B.
    specialize (B (blen y)). rewrite in_seq in B.
    assert (Ep2 : blen p = blen x + blen y) by (rewrite Ep, blen_app; reflexivity).
    assert (H : negb (beqb (bdrop (blen p - blen y) p) (btake (blen y) p)) = true) by (apply B; lia).
    replace (blen p - blen y) with (blen x) in H by lia.
    rewrite Ep in H at 1. rewrite bdrop_app in H.
    assert (T : btake (blen y) p = y).
    { destruct (app_split _ _ _ _ E3) as (z & -> & _); [lia|]. apply btake_app. }
    rewrite T, beqb_refl in H. discriminate.
Qed.
Lemma find_app p g s : borderless p = true -> absent p g -> find p (g +++ p +++ s) = Some s.
Proof.
  intros B. induction g as [|b g IH]; intros A.
  - cbn [bapp]. destruct (p +++ s) eqn:E; cbn [find]; rewrite <- E, bstrip_self; reflexivity.
  - cbn [bapp find]. destruct (bstrip p (bcons b (g +++ p +++ s))) eqn:E.
    + apply bstrip_app in E.
      assert (L := first_occurrence p (bcons b g) bnil b0 s B A E). cbn in L. lia.
    + apply IH, (absent_cons _ _ _ A).
Qed.
Lemma find_absent p s : absent p s -> find p s = None.
Proof.
  induction s as [|b s IH]; intros A; cbn [find]; rewrite (absent_strip _ _ A); [reflexivity|].
  apply IH, (absent_cons _ _ _ A).
Qed.
Lemma find_some p s r : find p s = Some r -> exists u, s = u +++ p +++ r.
Proof.
  revert r. induction s as [|b s IH]; intros r; cbn [find].
  - destruct (bstrip p bnil) eqn:E; [|discriminate]. intros [= ->]. apply bstrip_app in E. exists bnil. exact E.
  - destruct (bstrip p (bcons b s)) eqn:E.
    + intros [= ->]. apply bstrip_app in E. exists bnil. exact E.
    + intros F. destruct (IH _ F) as (u & ->). exists (bcons b u). reflexivity.
Qed.

(** ** findall *)
Section FindallThm.
Context {A : Type} (at_ : bstr -> option (A * bstr)).
Context (shorter : forall s a r, at_ s = Some (a, r) -> blen r < blen s).
Lemma findall_irrel : forall n m s, blen s < n -> blen s < m -> findall_fuel at_ n s = findall_fuel at_ m s.
Proof.
  induction n as [|n IH]; intros m s Hn Hm; [lia|]. destruct m as [|m]; [lia|]. cbn [findall_fuel].
  destruct (at_ s) as [[a r]|] eqn:E.
  - f_equal. apply shorter in E. apply IH; lia.
  - destruct s as [|b s]; [reflexivity|]. cbn in *. apply IH; lia.
Qed.
Lemma findall_hit s a r : at_ s = Some (a, r) -> findall at_ s = a :: findall at_ r.
Proof.
  intros E. unfold findall at 1. cbn [findall_fuel]. rewrite E. f_equal. apply findall_irrel; [|lia].
  apply shorter in E. lia.
Qed.
Lemma findall_skip b s : at_ (bcons b s) = None -> findall at_ (bcons b s) = findall at_ s.
Proof. intros E. unfold findall. cbn [blen]. change (findall_fuel at_ (S (S (blen s))) (bcons b s)) with (match at_ (bcons b s) with Some (a, r) => a :: findall_fuel at_ (S (blen s)) r | None => findall_fuel at_ (S (blen s)) s end). rewrite E. reflexivity. Qed.
Lemma findall_nil : at_ bnil = None -> findall at_ bnil = [].
Proof. intros E. unfold findall. cbn [blen findall_fuel]. rewrite E. reflexivity. Qed.
(** Nothing matches in a prefix. *)
Lemma findall_prefix g s : (forall u x, g = u +++ x -> x <> bnil -> at_ (x +++ s) = None) -> findall at_ (g +++ s) = findall at_ s.
Proof.
  induction g as [|b g IH]; intros H; [reflexivity|]. cbn [bapp].
  rewrite findall_skip; [|exact (H bnil (bcons b g) eq_refl ltac:(discriminate))].
  apply IH. intros u x E. apply (H (bcons b u) x). cbn. rewrite E. reflexivity.
Qed.
Lemma findall_none s : (forall u x, s = u +++ x -> at_ x = None) -> findall at_ s = [].
Proof.
  induction s as [|b s IH]; intros H.
  - apply findall_nil, (H bnil bnil eq_refl).
  - rewrite findall_skip; [|exact (H bnil (bcons b s) eq_refl)]. apply IH. intros u x E. apply (H (bcons b u) x). cbn. rewrite E. reflexivity.
Qed.
End FindallThm.

(** ** span *)
Lemma span_eq f s : fst (span f s) +++ snd (span f s) = s.
Proof. induction s as [|b s IH]; cbn; [reflexivity|]. destruct (f b); [|reflexivity]. destruct (span f s). cbn in *. congruence. Qed.
Lemma span_all f s : all_b f (fst (span f s)) = true.
Proof. induction s as [|b s IH]; cbn; [reflexivity|]. destruct (f b) eqn:E; [|reflexivity]. destruct (span f s). cbn in *. rewrite E. exact IH. Qed.

(** ** Init functions *)
Definition init_sig : bstr := "_init(xc_func_type *p)".
Definition malloc_sig : bstr := "libxc_malloc(sizeof(".
(** The allocating init functions of a text, with the struct each of them allocates: between the
    signature of an init function and its allocation there is no other signature.  An init
    function that allocates nothing may only stand after the last allocation. *)
Definition ends_word (g : bstr) : Prop := g = bnil \/ exists h c, g = h +++ bcons c bnil /\ is_word c = false.
Inductive functions : bstr -> list (bstr * bstr) -> Prop :=
| no_function g : absent init_sig g -> functions g []
| no_allocation g : absent malloc_sig g -> functions g []
| one_function g n b st rest fs :
    absent init_sig (g +++ n) -> ends_word g -> all_b is_word n = true ->
    absent init_sig b -> absent malloc_sig b ->
    all_b is_word st = true -> starts is_word rest = false ->
    functions rest fs ->
    functions (g +++ n +++ init_sig +++ b +++ malloc_sig +++ st +++ rest) ((n +++ "_init", st) :: fs).

Lemma bends_app suf s : bends suf s = true -> exists u, s = u +++ suf.
Proof.
  induction s as [|b s IH]; cbn [bends]; rewrite orb_true_iff; intros [H|H]; try discriminate.
  - apply beqb_eq in H. exists bnil. symmetry. exact H.
  - apply beqb_eq in H. exists bnil. symmetry. exact H.
  - destruct (IH H) as (u & ->). exists (bcons b u). reflexivity.
Qed.
Lemma app_bends suf u : bends suf (u +++ suf) = true.
Proof. induction u as [|b u IH]; cbn [bapp]; [destruct suf; cbn [bends]; rewrite beqb_refl; reflexivity|]. cbn [bends]. rewrite IH. apply orb_true_r. Qed.
Lemma init_at_some s w st r : init_at s = Some ((w, st), r) ->
  exists u x, w = u +++ "_init" /\ fst (span is_word s) = w /\ s = u +++ init_sig +++ x /\ (exists y, x = y +++ malloc_sig +++ st +++ r) /\ blen r < blen s.
Proof.
  unfold init_at. destruct (span is_word s) as [w' r'] eqn:E. destruct (bends "_init" w') eqn:B; [|discriminate].
  destruct (bstrip "(xc_func_type *p)" r') as [r1|] eqn:E1; [|discriminate].
  destruct (find "libxc_malloc(sizeof(" r1) as [r2|] eqn:E2; [|discriminate].
  destruct (span is_word r2) as [st' r3] eqn:E3. intros [= -> -> ->].
  apply bends_app in B. destruct B as (u & ->). exists u, r1. split; [reflexivity|]. split; [reflexivity|].
  assert (H := span_eq is_word s). rewrite E in H. cbn [fst snd] in H. apply bstrip_app in E1. subst r'.
  apply find_some in E2. destruct E2 as (y & ->). assert (H3 := span_eq is_word r2). rewrite E3 in H3. cbn [fst snd] in H3.
  subst r2. rewrite bapp_assoc in H.
  assert (Es : s = u +++ init_sig +++ y +++ malloc_sig +++ st +++ r) by (symmetry; exact H).
  split; [exact Es|]. split; [exists y; reflexivity|]. rewrite Es, !blen_app. cbn. lia.
Qed.
Lemma init_shorter s a r : init_at s = Some (a, r) -> blen r < blen s.
Proof. destruct a as [w st]. intros H. apply init_at_some in H. destruct H as (u & x & _ & _ & _ & _ & H). exact H. Qed.
Lemma span_cut f h c t : f c = false -> blen (fst (span f ((h +++ bcons c bnil) +++ t))) < blen (h +++ bcons c bnil).
Proof.
  intros H. rewrite bapp_assoc. cbn [bapp]. induction h as [|b h IH].
  - cbn. rewrite H. cbn. lia.
  - cbn [bapp span]. destruct (f b); cbn [fst blen]; [|lia]. destruct (span f (h +++ bcons c t)). cbn [fst blen] in *. lia.
Qed.
Lemma suffix_ends u x : ends_word (u +++ x) -> x <> bnil -> exists h c, x = h +++ bcons c bnil /\ is_word c = false.
Proof.
  intros [E|(h & c & E & H)] N.
  - destruct u; [destruct x; [congruence|discriminate]|discriminate].
  - revert h E. induction u as [|b u IH]; intros h E.
    + exists h, c. split; [exact E|exact H].
    + destruct h as [|b' h]; cbn in E; injection E as -> E.
      * destruct u; [destruct x; [congruence|discriminate]|discriminate].
      * apply (IH h E).
Qed.
Theorem functions_found s fs : functions s fs -> init_results s = fs.
Proof.
  unfold init_results. induction 1 as [g A|g A|g n b st rest fs A W N Ab Am S St _ IH].
  - apply (findall_none _). intros u x ->. destruct (init_at x) as [[[w st] r]|] eqn:E; [|reflexivity].
    apply init_at_some in E. destruct E as (v & y & _ & _ & -> & _). exfalso. apply (A (u +++ v) y). rewrite !bapp_assoc. reflexivity.
  - apply (findall_none _). intros u x ->. destruct (init_at x) as [[[w st] r]|] eqn:E; [|reflexivity].
    apply init_at_some in E. destruct E as (v & y & _ & _ & -> & (z & ->) & _). exfalso. apply (A (u +++ v +++ init_sig +++ z) (st +++ r)). rewrite !bapp_assoc. reflexivity.
  - rewrite (findall_prefix _).
    + assert (H : init_at (n +++ init_sig +++ b +++ malloc_sig +++ st +++ rest) = Some ((n +++ "_init", st), rest)).
      { change init_sig with ("_init" +++ "(xc_func_type *p)")%b. rewrite bapp_assoc. rewrite <- bapp_assoc.
        unfold init_at. rewrite span_stop; [|rewrite all_b_app, N; reflexivity|reflexivity].
        rewrite app_bends, bstrip_self. change "libxc_malloc(sizeof("%b with malloc_sig. rewrite (find_app malloc_sig b (st +++ rest) eq_refl Am).
        rewrite span_stop by assumption. reflexivity. }
      rewrite (findall_hit _ init_shorter _ _ _ H), IH. reflexivity.
    + intros u x -> X. destruct (init_at _) as [[[w st'] r]|] eqn:E; [|reflexivity]. exfalso.
      apply init_at_some in E. destruct E as (v & y & -> & Es & E & _).
      destruct (suffix_ends _ _ W X) as (h & c & -> & Hc).
      assert (L := span_cut is_word h c (n +++ init_sig +++ b +++ malloc_sig +++ st +++ rest) Hc). rewrite Es, blen_app in L.
      assert (A' : absent init_sig ((h +++ bcons c bnil) +++ n)) by (rewrite bapp_assoc in A; exact (absent_app_r _ _ _ A)).
      rewrite <- bapp_assoc in E. assert (L2 := first_occurrence init_sig _ _ _ _ eq_refl A' E).
      rewrite blen_app in L2. lia.
Qed.

(** ** Struct definitions *)
Definition typedef : bstr := "typedef struct".
(** The only struct definition of a text, with its name and body. *)
Definition struct_text (s name body : bstr) : Prop :=
  exists t0 w1 w2 t1, s = t0 +++ typedef +++ w1 +++ "{" +++ body +++ "}" +++ w2 +++ name +++ t1 /\
  absent typedef t0 /\ ends_word t0 /\ all_b is_space w1 = true /\ all_b is_space w2 = true /\ absent "}" body /\ absent typedef (name +++ t1) /\
  name <> bnil /\ starts is_space name = false.
Lemma span_len f s : blen (snd (span f s)) <= blen s.
Proof. rewrite <- (span_eq f s) at 2. rewrite blen_app. lia. Qed.
Lemma body_len name s : forall x r, body_until name s = Some (x, r) -> blen r <= blen s.
Proof.
  assert (C : forall s r, closing name s = Some r -> blen r <= blen s).
  { intros t r. unfold closing. destruct (bstrip "}" t) as [t'|] eqn:E; [|discriminate]. apply bstrip_app in E. subst t. cbn [bapp blen].
    destruct name; [intros [= ->]; lia|]. intros H. apply bstrip_app in H. assert (L := span_len is_space t'). unfold drop_ws in H. rewrite H, blen_app in L. lia. }
  induction s as [|c s IH]; intros x r; cbn [body_until]; destruct (closing name _) eqn:E.
  - intros [= <- <-]. apply C in E. exact E.
  - discriminate.
  - intros [= <- <-]. apply C in E. exact E.
  - destruct (body_until name s) as [[x' r']|] eqn:F; [|discriminate]. intros [= <- <-]. assert (L := IH _ _ eq_refl). cbn. lia.
Qed.
Lemma struct_shorter name s a r : struct_at name s = Some (a, r) -> blen r < blen s.
Proof.
  unfold struct_at. destruct (bstrip "typedef struct" s) as [t|] eqn:E; [|discriminate]. apply bstrip_app in E. subst s.
  destruct (bstrip "{" (drop_ws t)) as [t'|] eqn:E; [|discriminate]. apply bstrip_app in E. intros H. apply body_len in H.
  assert (L := span_len is_space t). unfold drop_ws in E. rewrite E in L. rewrite blen_app in *. cbn in *. lia.
Qed.
Lemma struct_absent name s : absent typedef s -> struct_at name s = None.
Proof. intros A. unfold struct_at. change "typedef struct"%b with typedef. rewrite (absent_strip _ _ A). reflexivity. Qed.
Lemma body_found name body w t : name <> bnil -> starts is_space name = false -> all_b is_space w = true -> absent "}" body ->
  body_until name (body +++ "}" +++ w +++ name +++ t) = Some (body, t).
Proof.
  intros N S W. induction body as [|c body IH]; intros A.
  - cbn [bapp]. cbn [body_until]. unfold closing. change (bcons "}" (w +++ name +++ t)) with ("}" +++ w +++ name +++ t)%b. rewrite bstrip_self.
    destruct name as [|c name]; [congruence|]. unfold drop_ws. rewrite span_stop; [|exact W|exact S]. cbn [snd]. rewrite bstrip_self. reflexivity.
  - change (bcons c body +++ "}" +++ w +++ name +++ t) with (bcons c (body +++ "}" +++ w +++ name +++ t)). cbn [body_until]. replace (closing name _) with (@None bstr).
    + rewrite (IH (absent_cons _ _ _ A)). reflexivity.
    + unfold closing. destruct (bstrip "}" _) eqn:E; [|reflexivity]. apply bstrip_app in E. injection E as -> _. exfalso. apply (A bnil body). reflexivity.
Qed.
Lemma typedef_first x t b : absent typedef x -> (exists h c, x = h +++ bcons c bnil /\ is_word c = false) -> x +++ typedef +++ t <> typedef +++ b.
Proof.
  intros A (h & c & -> & H) E. destruct (le_lt_dec (blen typedef) (blen (h +++ bcons c bnil))) as [L|L].
  - destruct (app_split _ _ _ _ E L) as (y & Ey & _). apply (A bnil y). exact Ey.
  - symmetry in E. destruct (app_split _ _ _ _ E) as (y & Ey & E2); [lia|].
    rewrite bapp_assoc in Ey. cbn [bapp] in Ey. clear E A L. unfold typedef in *.
    repeat (destruct h as [|? h]; [cbn in Ey; injection Ey as <- <-; first [discriminate H|cbn in E2; discriminate E2]|cbn in Ey; first [discriminate Ey|injection Ey as <- Ey]]).
    destruct h; discriminate Ey.
Qed.
Theorem struct_found s name body : struct_text s name body -> struct_results name s = [body].
Proof.
  intros (t0 & w1 & w2 & t1 & -> & A0 & T0 & W1 & W2 & B & A1 & N & S). unfold struct_results.
  rewrite (findall_prefix _).
  - rewrite (findall_hit _ (struct_shorter name) _ body t1).
    + f_equal. apply (findall_none _). intros u x ->. apply struct_absent.
      apply (absent_app_r _ u). apply (absent_app_r _ name). exact A1.
    + unfold struct_at. change "typedef struct"%b with typedef. rewrite bstrip_self. unfold drop_ws. rewrite span_stop; [|exact W1|reflexivity].
      cbn [snd]. rewrite bstrip_self. apply body_found; assumption.
  - intros u x -> X. unfold struct_at. change "typedef struct"%b with typedef. destruct (bstrip typedef _) eqn:E; [|reflexivity]. exfalso.
    apply bstrip_app in E. exact (typedef_first x _ _ (absent_app_r _ _ _ A0) (suffix_ends _ _ T0 X) E).
Qed.

(** The definitions of a struct in a text, in order, none of another struct. *)
Inductive structs (name : bstr) : bstr -> list bstr -> Prop :=
| structs_none s : absent typedef s -> structs name s []
| structs_one t0 w1 body w2 t1 bs : absent typedef t0 -> ends_word t0 -> all_b is_space w1 = true -> all_b is_space w2 = true ->
    absent "}" body -> structs name t1 bs -> structs name (t0 +++ typedef +++ w1 +++ "{" +++ body +++ "}" +++ w2 +++ name +++ t1) (body :: bs).
Theorem structs_found s name bs : name <> bnil -> starts is_space name = false -> structs name s bs -> struct_results name s = bs.
Proof.
  intros N S. unfold struct_results. induction 1 as [s A|t0 w1 body w2 t1 bs A0 T0 W1 W2 B H IH].
  - apply (findall_none _). intros u x ->. apply struct_absent, (absent_app_r _ u), A.
  - rewrite (findall_prefix _).
    + rewrite (findall_hit _ (struct_shorter name) _ body t1); [rewrite IH; reflexivity|].
      unfold struct_at. change "typedef struct"%b with typedef. rewrite bstrip_self. unfold drop_ws. rewrite span_stop; [|exact W1|reflexivity].
      cbn [snd]. rewrite bstrip_self. apply body_found; assumption.
    + intros u x -> X. unfold struct_at. change "typedef struct"%b with typedef. destruct (bstrip typedef _) eqn:E; [|reflexivity]. exfalso.
      apply bstrip_app in E. exact (typedef_first x _ _ (absent_app_r _ _ _ A0) (suffix_ends _ _ T0 X) E).
Qed.

(** ** Fields *)
(** Pieces of a struct body: plain text, comments, array dimensions. *)
Inductive piece := Plain (s : bstr) | Comment (s : bstr) | Dim (digits : bstr).
Definition piece_text (p : piece) : bstr :=
  match p with Plain s => s | Comment s => "/*" +++ s +++ "*/" | Dim d => "[" +++ d +++ "]" end.
Definition plain_byte (b : byte) : bool := negb (Byte.eqb b "/" || Byte.eqb b "[").
Definition piece_ok (p : piece) : Prop :=
  match p with Plain s => all_b plain_byte s = true | Comment s => absent "*/" s | Dim d => all_b is_digit d = true end.
Definition text (l : list piece) : bstr := bconcat (map piece_text l).
Definition no_comments (l : list piece) : list piece := filter (fun p => match p with Comment _ => false | _ => true end) l.
Definition plain (l : list piece) : bstr := bconcat (map (fun p => match p with Plain s => s | _ => bnil end) l).

Section DeleteThm.
Context (at_ : bstr -> option bstr) (shorter : forall s r, at_ s = Some r -> blen r < blen s).
Lemma delete_irrel : forall n m s, blen s < n -> blen s < m -> delete_fuel at_ n s = delete_fuel at_ m s.
Proof.
  induction n as [|n IH]; intros m s Hn Hm; [lia|]. destruct m as [|m]; [lia|]. cbn [delete_fuel].
  destruct (at_ s) as [r|] eqn:E.
  - apply shorter in E. apply IH; lia.
  - destruct s as [|b s]; [reflexivity|]. cbn in *. f_equal. apply IH; lia.
Qed.
Lemma delete_hit s r : at_ s = Some r -> delete at_ s = delete at_ r.
Proof. intros E. unfold delete at 1. cbn [delete_fuel]. rewrite E. apply shorter in E. apply delete_irrel; lia. Qed.
Lemma delete_skip b s : at_ (bcons b s) = None -> delete at_ (bcons b s) = bcons b (delete at_ s).
Proof.
  intros E. unfold delete. cbn [blen].
  change (delete_fuel at_ (S (S (blen s))) (bcons b s)) with (match at_ (bcons b s) with Some r => delete_fuel at_ (S (blen s)) r | None => bcons b (delete_fuel at_ (S (blen s)) s) end).
  rewrite E. reflexivity.
Qed.
End DeleteThm.
Lemma find_len p s r : find p s = Some r -> blen r <= blen s.
Proof. intros H. apply find_some in H. destruct H as (u & ->). rewrite !blen_app. lia. Qed.
Lemma comment_shorter s r : comment_at s = Some r -> blen r < blen s.
Proof.
  unfold comment_at. destruct (bstrip "/*" s) as [t|] eqn:E; [|discriminate]. apply bstrip_app in E. subst s. intros H. apply find_len in H.
  rewrite blen_app. cbn. lia.
Qed.
Lemma dim_shorter s r : dim_at s = Some r -> blen r < blen s.
Proof.
  unfold dim_at. destruct (bstrip "[" s) as [t|] eqn:E; [|discriminate]. apply bstrip_app in E. subst s. intros H. apply bstrip_app in H.
  assert (L := span_len is_digit t). rewrite H, blen_app in L. rewrite blen_app. cbn in *. lia.
Qed.
Lemma delete_run at_ (f : byte -> bool) : (forall b s, f b = true -> at_ (bcons b s) = None) ->
  forall x s, all_b f x = true -> delete at_ (x +++ s) = x +++ delete at_ s.
Proof.
  intros H x s. induction x as [|b x IH]; [reflexivity|]. cbn [all_b bapp]. rewrite andb_true_iff. intros [A B].
  rewrite delete_skip by (apply H, A). rewrite (IH B). reflexivity.
Qed.
Lemma strip_other p b c s : Byte.eqb c b = false -> bstrip (bcons c p) (bcons b s) = None.
Proof. intros E. cbn [bstrip]. rewrite E. reflexivity. Qed.
Lemma eqb_sym a b : Byte.eqb a b = Byte.eqb b a.
Proof. destruct (Byte.eqb b a) eqn:E. { apply byte_eqb_eq in E. subst. apply byte_eqb_refl. } destruct (Byte.eqb a b) eqn:F; [|reflexivity]. apply byte_eqb_eq in F. subst. rewrite byte_eqb_refl in E. discriminate. Qed.
Definition not_slash (b : byte) : bool := negb (Byte.eqb b "/").
Lemma comment_skip b s : not_slash b = true -> comment_at (bcons b s) = None.
Proof. intros H. unfold comment_at. rewrite strip_other; [reflexivity|]. rewrite eqb_sym. apply negb_true_iff, H. Qed.
Definition not_bracket (b : byte) : bool := negb (Byte.eqb b "[").
Lemma dim_skip b s : not_bracket b = true -> dim_at (bcons b s) = None.
Proof. intros H. unfold dim_at. rewrite strip_other; [reflexivity|]. rewrite eqb_sym. apply negb_true_iff, H. Qed.
Lemma plain_slash b : plain_byte b = true -> not_slash b = true.
Proof. unfold plain_byte, not_slash. destruct (Byte.eqb b "/"); [discriminate|reflexivity]. Qed.
Lemma plain_bracket b : plain_byte b = true -> not_bracket b = true.
Proof. unfold plain_byte, not_bracket. destruct (Byte.eqb b "["); [rewrite orb_true_r; discriminate|reflexivity]. Qed.
Lemma digit_slash b : is_digit b = true -> not_slash b = true. Proof. destruct b; try discriminate; reflexivity. Qed.
Lemma comments_deleted l : Forall piece_ok l -> delete comment_at (text l) = text (no_comments l).
Proof.
  induction 1 as [|p l P _ IH]; [reflexivity|]. unfold text in *. cbn [map bconcat no_comments filter]. destruct p as [s|s|d]; cbn [piece_text map bconcat].
  - rewrite (delete_run _ not_slash comment_skip); [|apply (all_b_imp plain_byte _ _ plain_slash), P]. rewrite IH. reflexivity.
  - rewrite (delete_hit _ comment_shorter _ (bconcat (map piece_text l))); [exact IH|].
    unfold comment_at. rewrite !bapp_assoc, bstrip_self. apply find_app; [reflexivity|exact P].
  - rewrite !bapp_assoc. cbn [bapp]. rewrite delete_skip by reflexivity.
    change (bcons "]" (bconcat (map piece_text l))) with ("]" +++ bconcat (map piece_text l))%b.
    rewrite (delete_run _ not_slash comment_skip) by (apply (all_b_imp is_digit _ _ digit_slash), P).
    cbn [bapp]. rewrite delete_skip by reflexivity. rewrite IH. reflexivity.
Qed.
Lemma dims_deleted l : Forall piece_ok l -> delete dim_at (text (no_comments l)) = plain l.
Proof.
  induction 1 as [|p l P _ IH]; [reflexivity|]. unfold text, plain in *. cbn [map bconcat no_comments filter]. destruct p as [s|s|d]; cbn [piece_text map bconcat].
  - rewrite (delete_run _ not_bracket dim_skip); [|apply (all_b_imp plain_byte _ _ plain_bracket), P]. fold (no_comments l). rewrite IH. reflexivity.
  - exact IH.
  - fold (no_comments l). rewrite (delete_hit _ dim_shorter _ (bconcat (map piece_text (no_comments l)))); [exact IH|].
    unfold dim_at. rewrite !bapp_assoc, bstrip_self. rewrite span_stop; [|exact P|reflexivity]. cbn [snd]. rewrite bstrip_self. reflexivity.
Qed.

(** Splitting. *)
Definition none_of (f : byte -> bool) (s : bstr) : bool := all_b (fun b => negb (f b)) s.
Lemma split_one f x : none_of f x = true -> split_on f x = [x].
Proof. induction x as [|b x IH]; [reflexivity|]. unfold none_of in *. cbn [all_b split_on]. rewrite andb_true_iff, negb_true_iff. intros [A B]. rewrite A, (IH B). reflexivity. Qed.
Lemma split_app f x b s : none_of f x = true -> f b = true -> split_on f (x +++ bcons b s) = x :: split_on f s.
Proof.
  intros N H. induction x as [|c x IH]; cbn [bapp split_on]; [rewrite H; reflexivity|].
  unfold none_of in *. cbn [all_b] in N. rewrite andb_true_iff, negb_true_iff in N. destruct N as [A B]. rewrite A, (IH B). reflexivity.
Qed.
Definition words (f : byte -> bool) (s : bstr) : list bstr := filter nonempty (split_on f s).
Lemma words_seps f x s : all_b f x = true -> words f (x +++ s) = words f s.
Proof. induction x as [|b x IH]; [reflexivity|]. cbn [all_b bapp]. rewrite andb_true_iff. intros [A B]. unfold words in *. cbn [split_on]. rewrite A. cbn [filter nonempty]. apply IH, B. Qed.
Lemma words_word f w s : w <> bnil -> none_of f w = true -> starts (fun b => negb (f b)) s = false -> words f (w +++ s) = w :: words f s.
Proof.
  intros N H S. unfold words. destruct s as [|b s].
  - rewrite bapp_nil_r, split_one by exact H. cbn [split_on filter nonempty]. destruct w; [congruence|reflexivity].
  - cbn in S. apply negb_false_iff in S. rewrite split_app by assumption. cbn [split_on]. rewrite S. cbn [filter nonempty]. destruct w; [congruence|reflexivity].
Qed.
(** A first word, then separators and words. *)
Fixpoint spaced (w : bstr) (l : list (bstr * bstr)) : bstr := match l with [] => w | (sep, w') :: l => w +++ sep +++ spaced w' l end.
Lemma words_spaced f w l : w <> bnil -> none_of f w = true ->
  Forall (fun p => fst p <> bnil /\ all_b f (fst p) = true /\ snd p <> bnil /\ none_of f (snd p) = true) l ->
  words f (spaced w l) = w :: map snd l.
Proof.
  intros N H F. revert w N H. induction F as [|[sep w'] l (P1 & P2 & P3 & P4) _ IH]; intros w N H; cbn [spaced map].
  - rewrite <- (bapp_nil_r w) at 1. rewrite words_word; [reflexivity|exact N|exact H|reflexivity].
  - rewrite words_word; [|exact N|exact H|].
    + rewrite words_seps by exact P2. f_equal. apply IH; assumption.
    + destruct sep as [|b sep]; [cbn in P1; congruence|]. cbn in P2 |- *. apply andb_true_iff in P2. rewrite (proj1 P2). reflexivity.
Qed.
(** Stripping. *)
Lemma brev_app_spec s : forall t, brev_app s t = brev_app s bnil +++ t.
Proof. induction s as [|b s IH]; intros t; cbn [brev_app]; [reflexivity|]. rewrite IH, (IH (bcons b bnil)), bapp_assoc. reflexivity. Qed.
Lemma brev_cons b s : brev (bcons b s) = brev s +++ bcons b bnil.
Proof. unfold brev. cbn [brev_app]. apply brev_app_spec. Qed.
Lemma brev_bapp s t : brev (s +++ t) = brev t +++ brev s.
Proof. induction s as [|b s IH]; cbn [bapp]; [rewrite bapp_nil_r; reflexivity|]. rewrite !brev_cons, IH, bapp_assoc. reflexivity. Qed.
Lemma brev_brev s : brev (brev s) = s.
Proof. induction s as [|b s IH]; [reflexivity|]. rewrite brev_cons, brev_bapp, IH. reflexivity. Qed.
Lemma all_b_brev f s : all_b f (brev s) = all_b f s.
Proof. induction s as [|b s IH]; [reflexivity|]. rewrite brev_cons, all_b_app, IH. cbn. rewrite andb_true_r. apply andb_comm. Qed.
Lemma strip_layout a x b : all_b is_space a = true -> all_b is_space b = true -> starts is_space x = false -> starts is_space (brev x) = false ->
  strip (a +++ x +++ b) = x.
Proof.
  intros A B X Y. unfold strip, drop_ws.
  destruct x as [|c x].
  - cbn [bapp]. rewrite <- (bapp_nil_r (a +++ b)). rewrite span_stop; [reflexivity|rewrite all_b_app, A, B; reflexivity|reflexivity].
  - rewrite span_stop; [|exact A|exact X]. cbn [snd]. rewrite brev_bapp. rewrite span_stop; [|rewrite all_b_brev; exact B|exact Y].
    cbn [snd]. apply brev_brev.
Qed.

(** ** Declarations *)
(** Blanks and comments between the words of a struct body. *)
Definition layout := list piece.
Definition layout_ok (f : byte -> bool) (l : layout) : Prop :=
  Forall (fun p => match p with Plain s => all_b f s = true | Comment s => absent "*/" s | Dim _ => False end) l.
Definition is_blank (b : byte) : bool := Byte.eqb b " ".
(** One declaration: a type, possibly const, and its members, each with its array dimensions; the
    members are separated by commas.  Within a declaration the blanks are spaces; around it they are
    any white space. *)
Record member := { m_before : layout; m_after : layout; m_name : bstr; m_dims : list bstr }.
Record decl := { d_lead : layout; d_const : option layout; d_type : bstr; d_gap : layout; d_name : bstr; d_dims : list bstr;
                 d_more : list member; d_trail : layout }.
Definition member_pieces (m : member) : list piece := m_before m ++ Plain "," :: m_after m ++ Plain (m_name m) :: map Dim (m_dims m).
Definition decl_pieces (d : decl) : list piece :=
  d_lead d ++ match d_const d with Some l => Plain "const" :: l | None => [] end ++
  Plain (d_type d) :: d_gap d ++ Plain (d_name d) :: map Dim (d_dims d) ++ flat_map member_pieces (d_more d) ++ d_trail d ++ [Plain ";"%b].
Definition identifier (w : bstr) : Prop := w <> bnil /\ all_b is_word w = true.
Definition spaces (l : layout) : Prop := layout_ok is_blank l /\ plain l <> bnil.
Definition member_ok (m : member) : Prop :=
  layout_ok is_blank (m_before m) /\ layout_ok is_blank (m_after m) /\ identifier (m_name m) /\ Forall (fun x => all_b is_digit x = true) (m_dims m).
Definition decl_ok (d : decl) : Prop :=
  layout_ok is_space (d_lead d) /\ match d_const d with Some l => spaces l | None => d_type d <> "const"%b end /\
  identifier (d_type d) /\ spaces (d_gap d) /\ identifier (d_name d) /\ Forall (fun x => all_b is_digit x = true) (d_dims d) /\
  Forall member_ok (d_more d) /\ layout_ok is_space (d_trail d).
Definition decl_names (d : decl) : list bstr := d_name d :: map m_name (d_more d).
Definition body_text (ds : list decl) (tail : layout) : bstr := text (flat_map decl_pieces ds ++ tail).

Lemma space_plain b : is_space b = true -> plain_byte b = true. Proof. destruct b; try discriminate; reflexivity. Qed.
Lemma blank_space b : is_blank b = true -> is_space b = true. Proof. destruct b; try discriminate; reflexivity. Qed.
Lemma word_plain b : is_word b = true -> plain_byte b = true. Proof. destruct b; try discriminate; reflexivity. Qed.
Lemma layout_pieces f l : (forall b, f b = true -> plain_byte b = true) -> layout_ok f l -> Forall piece_ok l.
Proof. intros H. apply Forall_impl. intros [s|s|d]; cbn; [apply all_b_imp, H|auto|tauto]. Qed.
Lemma layout_plain f l : layout_ok f l -> all_b f (plain l) = true.
Proof.
  induction 1 as [|p l P _ IH]; [reflexivity|]. unfold plain in *. cbn [map bconcat]. rewrite all_b_app, IH.
  destruct p; [rewrite P; reflexivity|reflexivity|contradiction].
Qed.
Lemma plain_app l m : plain (l ++ m) = plain l +++ plain m.
Proof. unfold plain. induction l as [|p l IH]; cbn [map app bconcat]; [reflexivity|]. rewrite IH, bapp_assoc. reflexivity. Qed.
Lemma plain_cons s l : plain (Plain s :: l) = s +++ plain l. Proof. reflexivity. Qed.
Lemma plain_dims l : plain (map Dim l) = bnil. Proof. induction l as [|d l IH]; [reflexivity|exact IH]. Qed.
Lemma dims_pieces l : Forall (fun x => all_b is_digit x = true) l -> Forall piece_ok (map Dim l).
Proof. induction 1; cbn; constructor; assumption. Qed.
Lemma member_pieces_ok m : member_ok m -> Forall piece_ok (member_pieces m).
Proof.
  intros (A & B & (_ & C) & D). unfold member_pieces. apply Forall_app. split; [exact (layout_pieces _ _ (fun b H => space_plain b (blank_space b H)) A)|].
  constructor; [reflexivity|]. apply Forall_app. split; [exact (layout_pieces _ _ (fun b H => space_plain b (blank_space b H)) B)|].
  constructor; [exact (all_b_imp _ _ _ word_plain C)|]. apply dims_pieces, D.
Qed.
Lemma decl_pieces_ok d : decl_ok d -> Forall piece_ok (decl_pieces d).
Proof.
  intros (A & B & (_ & C) & (D & _) & (_ & E) & F & G & H). unfold decl_pieces. assert (BP := fun b H => space_plain b (blank_space b H)).
  apply Forall_app. split; [exact (layout_pieces _ _ space_plain A)|]. apply Forall_app. split.
  { destruct (d_const d); [|constructor]. constructor; [reflexivity|]. exact (layout_pieces _ _ BP (proj1 B)). }
  constructor; [exact (all_b_imp _ _ _ word_plain C)|]. apply Forall_app. split; [exact (layout_pieces _ _ BP D)|].
  constructor; [exact (all_b_imp _ _ _ word_plain E)|]. apply Forall_app. split; [apply dims_pieces, F|].
  apply Forall_app. split.
  { clear - G. induction G as [|m l M _ IH]; [constructor|]. cbn. apply Forall_app. split; [apply member_pieces_ok, M|exact IH]. }
  apply Forall_app. split; [exact (layout_pieces _ _ space_plain H)|]. constructor; [reflexivity|constructor].
Qed.
(** A declaration without comments and dimensions. *)
Definition decl_words (d : decl) : list (bstr * bstr) :=
  (plain (d_gap d), d_name d) :: map (fun m => (plain (m_before m) +++ "," +++ plain (m_after m), m_name m)) (d_more d).
Definition core (d : decl) : bstr :=
  match d_const d with Some l => spaced "const" ((plain l, d_type d) :: decl_words d) | None => spaced (d_type d) (decl_words d) end.
Lemma plain_members w l : w +++ plain (flat_map member_pieces l) = spaced w (map (fun m => (plain (m_before m) +++ "," +++ plain (m_after m), m_name m)) l).
Proof.
  revert w. induction l as [|m l IH]; intros w; cbn [flat_map map spaced]; [apply bapp_nil_r|].
  unfold member_pieces at 1. rewrite <- (IH (m_name m)). repeat (rewrite ?plain_app, ?plain_cons, ?plain_dims, ?bapp_assoc; cbn [bapp app]). reflexivity.
Qed.
Lemma plain_decl d : plain (decl_pieces d) = (plain (d_lead d) +++ core d +++ plain (d_trail d)) +++ ";".
Proof.
  unfold decl_pieces, core, decl_words. cbn [spaced].
  assert (H : forall t, d_type d +++ plain (d_gap d) +++ d_name d +++ plain (flat_map member_pieces (d_more d)) +++ t =
    (d_type d +++ plain (d_gap d) +++ spaced (d_name d) (map (fun m => (plain (m_before m) +++ "," +++ plain (m_after m), m_name m)) (d_more d))) +++ t).
  { intros t. rewrite <- plain_members, !bapp_assoc. reflexivity. }
  repeat (rewrite ?plain_app, ?plain_cons, ?plain_dims, ?bapp_assoc; cbn [bapp app]).
  destruct (d_const d) as [l|]; repeat (rewrite ?plain_app, ?plain_cons, ?plain_dims, ?bapp_assoc; cbn [bapp app]).
  - specialize (H (plain (d_trail d) +++ ";")). rewrite !bapp_assoc in H. cbn [spaced]. rewrite ?bapp_assoc. change (bcons ";" (plain [])) with ";"%b. rewrite H. reflexivity.
  - specialize (H (plain (d_trail d) +++ ";")). rewrite !bapp_assoc in H. change (bcons ";" (plain [])) with ";"%b. rewrite H. reflexivity.
Qed.

Definition gap_ok (p : bstr * bstr) : Prop := fst p <> bnil /\ all_b is_comma_or_blank (fst p) = true /\ identifier (snd p).
Lemma blank_sep b : is_blank b = true -> is_comma_or_blank b = true. Proof. destruct b; try discriminate; reflexivity. Qed.
Lemma word_not_sep b : is_word b = true -> negb (is_comma_or_blank b) = true. Proof. destruct b; try discriminate; reflexivity. Qed.
Lemma word_not_semi b : is_word b = true -> negb (is_semicolon b) = true. Proof. destruct b; try discriminate; reflexivity. Qed.
Lemma sep_not_semi b : is_comma_or_blank b = true -> negb (is_semicolon b) = true. Proof. destruct b; try discriminate; reflexivity. Qed.
Lemma space_not_semi b : is_space b = true -> negb (is_semicolon b) = true. Proof. destruct b; try discriminate; reflexivity. Qed.
Lemma word_not_space b : is_word b = true -> is_space b = false. Proof. destruct b; try discriminate; reflexivity. Qed.
Lemma decl_words_ok d : decl_ok d -> Forall gap_ok (decl_words d).
Proof.
  intros (_ & _ & _ & (D & D') & E & _ & G & _). unfold decl_words. constructor.
  - split; [exact D'|]. split; [apply (all_b_imp is_blank _ _ blank_sep), layout_plain, D|exact E].
  - induction G as [|m l (A & B & C & _) _ IH]; cbn; constructor; [|exact IH]. split.
    + cbn. destruct (plain (m_before m)); discriminate.
    + split; [|exact C]. cbn [fst]. rewrite !all_b_app. cbn. apply andb_true_iff. split; [|]; apply (all_b_imp is_blank _ _ blank_sep), layout_plain; assumption.
Qed.
Lemma core_spaced d : decl_ok d -> exists w l, core d = spaced w l /\ identifier w /\ Forall gap_ok l /\
  (if beqb w "const" then tl (map snd l) else map snd l) = decl_names d.
Proof.
  intros H. assert (W := decl_words_ok d H). destruct H as (_ & B & C & _). unfold core.
  assert (N : map snd (decl_words d) = decl_names d) by (unfold decl_words, decl_names; cbn; rewrite map_map; reflexivity).
  destruct (d_const d) as [l|].
  - exists "const"%b, ((plain l, d_type d) :: decl_words d). split; [reflexivity|]. split; [split; [discriminate|reflexivity]|].
    split; [|exact N]. constructor; [|exact W]. split; [exact (proj2 B)|]. split; [|exact C]. apply (all_b_imp is_blank _ _ blank_sep), layout_plain, B.
  - exists (d_type d), (decl_words d). split; [reflexivity|]. split; [exact C|]. split; [exact W|]. apply beqb_neq in B. rewrite B. exact N.
Qed.
Lemma spaced_bytes (f : byte -> bool) w l : (forall b, is_word b = true -> f b = true) -> (forall b, is_comma_or_blank b = true -> f b = true) ->
  identifier w -> Forall gap_ok l -> all_b f (spaced w l) = true.
Proof.
  intros Fw Fs W H. revert w W. induction H as [|[sep w'] l (A & B & C) _ IH]; intros w (_ & W); cbn [spaced].
  - exact (all_b_imp _ _ _ Fw W).
  - cbn in B. rewrite !all_b_app, (all_b_imp _ _ _ Fw W), (all_b_imp _ _ _ Fs B). apply IH, C.
Qed.
Lemma identifier_start w s : identifier w -> starts is_space (w +++ s) = false.
Proof. intros (N & W). destruct w as [|b w]; [congruence|]. cbn in *. apply andb_true_iff in W. apply word_not_space, W. Qed.
Lemma spaced_start w l : identifier w -> starts is_space (spaced w l) = false.
Proof. intros W. destruct l as [|[sep w'] l]; cbn [spaced]; [rewrite <- (bapp_nil_r w)|]; apply identifier_start, W. Qed.
Lemma spaced_end w l : identifier w -> Forall gap_ok l -> starts is_space (brev (spaced w l)) = false.
Proof.
  intros W H. assert (E : exists u v, spaced w l = u +++ v /\ identifier v).
  { revert w W. induction H as [|[sep w'] l (A & B & C) _ IH]; intros w W; cbn [spaced]; [exists bnil, w; auto|].
    destruct (IH w' C) as (u & v & -> & V). exists (w +++ sep +++ u), v. rewrite !bapp_assoc. auto. }
  destruct E as (u & v & -> & (N & V)). rewrite brev_bapp. apply identifier_start. split.
  - intros E. apply N. rewrite <- (brev_brev v), E. reflexivity.
  - rewrite all_b_brev. exact V.
Qed.
Lemma group_decl d : decl_ok d -> group_fields (plain (d_lead d) +++ core d +++ plain (d_trail d)) = decl_names d.
Proof.
  intros H. destruct (core_spaced d H) as (w & l & E & W & G & N). destruct H as (A & _ & _ & _ & _ & _ & _ & B).
  unfold group_fields. rewrite strip_layout; [|exact (layout_plain _ _ A)|exact (layout_plain _ _ B)|rewrite E; apply spaced_start, W|rewrite E; apply spaced_end; assumption].
  rewrite E. change (filter nonempty (split_on is_comma_or_blank (spaced w l))) with (words is_comma_or_blank (spaced w l)).
  rewrite words_spaced; [exact N|exact (proj1 W)|exact (all_b_imp _ _ _ word_not_sep (proj2 W))|].
  revert G. apply Forall_impl. intros [sep x] (P1 & P2 & P3 & P4). refine (conj P1 (conj P2 (conj P3 _))). exact (all_b_imp _ _ _ word_not_sep P4).
Qed.
Lemma group_layout l : layout_ok is_space l -> group_fields (plain l) = [].
Proof.
  intros H. apply layout_plain in H. unfold group_fields.
  assert (E := strip_layout (plain l) bnil bnil H eq_refl eq_refl eq_refl). cbn [bapp] in E. rewrite bapp_nil_r in E. rewrite E. reflexivity.
Qed.
Theorem fields_found ds tail : Forall decl_ok ds -> layout_ok is_space tail -> body_fields (body_text ds tail) = flat_map decl_names ds.
Proof.
  intros H T. unfold body_fields, body_text.
  assert (P : Forall piece_ok (flat_map decl_pieces ds ++ tail)).
  { apply Forall_app. split; [|exact (layout_pieces _ _ space_plain T)]. induction H as [|d ds D _ IH]; [constructor|]. cbn. apply Forall_app. split; [apply decl_pieces_ok, D|exact IH]. }
  rewrite comments_deleted, dims_deleted by exact P. clear P.
  induction H as [|d ds D _ IH].
  - cbn [flat_map app]. rewrite split_one; [|exact (all_b_imp _ _ _ space_not_semi (layout_plain _ _ T))]. cbn [flat_map]. rewrite (group_layout _ T). reflexivity.
  - cbn [flat_map]. rewrite <- app_assoc, plain_app, plain_decl, bapp_assoc. change (";" +++ plain (flat_map decl_pieces ds ++ tail))%b with (bcons ";" (plain (flat_map decl_pieces ds ++ tail))).
    rewrite split_app; [|unfold none_of|reflexivity].
    + cbn [flat_map]. rewrite IH, (group_decl d D). reflexivity.
    + destruct (core_spaced d D) as (w & l & E & W & G & _). destruct D as (A & _ & _ & _ & _ & _ & _ & B).
      rewrite !all_b_app, (all_b_imp _ _ _ space_not_semi (layout_plain _ _ A)), (all_b_imp _ _ _ space_not_semi (layout_plain _ _ B)), E, (spaced_bytes _ w l word_not_semi sep_not_semi W G). reflexivity.
Qed.
