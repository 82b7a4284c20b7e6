(** Includes, the whole wrapped file, and what the loaded extension registers. *)
From Coq Require Import Strings.Byte List Bool Arith Lia.
From Verif Require Import Bytes Parser PostFast Impl Records RecordsThm RecordsThm2 Literals Wrap WrapThm.
Import ListNotations.

(** ** Includes *)
(** The lines of a file: the include of a generated Maple file, the include of a work file, or any
    other line. *)
Inductive line := Maple_include (dir name : bstr) | Work_include (name : bstr) | Other (s : bstr).
Definition line_text (l : line) : bstr :=
  match l with
  | Maple_include d m => "#include ""maple2c/" +++ d +++ "/" +++ m +++ ".c"""
  | Work_include w => "#include ""work_" +++ w +++ ".c"""
  | Other s => s
  end.
Definition not_newline (b : byte) : bool := negb (Byte.eqb b x0a).
Definition line_ok (l : line) : Prop :=
  match l with
  | Maple_include d m => all_b is_word d = true /\ all_b is_word m = true
  | Work_include w => all_b is_word w = true
  | Other s => all_b not_newline s = true /\ absent "#include ""maple2c/" s /\ absent "#include ""work_" s
  end.
Fixpoint join_lines (l : list bstr) : bstr :=
  match l with [] => bnil | [s] => s | s :: l => s +++ bcons x0a (join_lines l) end.
Definition maples (ls : list line) : list bstr := flat_map (fun l => match l with Maple_include _ m => [m] | _ => [] end) ls.
Definition works (ls : list line) : list bstr := flat_map (fun l => match l with Work_include w => ["work_" +++ w] | _ => [] end) ls.

Lemma lines_one s : all_b not_newline s = true -> lines s = [s].
Proof. induction s as [|b s IH]; [reflexivity|]. cbn [all_b lines]. rewrite andb_true_iff. unfold not_newline at 1. rewrite negb_true_iff. intros [A B]. rewrite A, (IH B). reflexivity. Qed.
Lemma lines_app s t : all_b not_newline s = true -> lines (s +++ bcons x0a t) = s :: lines t.
Proof. induction s as [|b s IH]; [reflexivity|]. cbn [all_b bapp lines]. rewrite andb_true_iff. unfold not_newline at 1. rewrite negb_true_iff. intros [A B]. rewrite A, (IH B). reflexivity. Qed.
Lemma lines_join l : l <> [] -> Forall (fun s => all_b not_newline s = true) l -> lines (join_lines l) = l.
Proof.
  intros N H. induction H as [|s l S F IH]; [congruence|]. destruct l as [|s' l]; cbn [join_lines]; [apply lines_one, S|].
  rewrite lines_app by exact S. f_equal. apply IH. discriminate.
Qed.
Lemma word_newline b : is_word b = true -> not_newline b = true. Proof. destruct b; try discriminate; reflexivity. Qed.
Lemma text_newline l : line_ok l -> all_b not_newline (line_text l) = true.
Proof.
  destruct l as [d m|w|s]; cbn [line_ok line_text]; [intros [A B]|intros A|intros [A _]; exact A];
    rewrite ?all_b_app, ?(all_b_imp _ _ _ word_newline A), ?(all_b_imp _ _ _ word_newline B); reflexivity.
Qed.
Definition btl (s : bstr) : bstr := match s with bcons _ s => s | bnil => bnil end.
Definition not_hash (b : byte) : bool := negb (Byte.eqb b "#").
Lemma word_hash b : is_word b = true -> not_hash b = true. Proof. destruct b; try discriminate; reflexivity. Qed.
Lemma all_b_suffix f u x : all_b f (u +++ x) = true -> all_b f x = true.
Proof. rewrite all_b_app, andb_true_iff. tauto. Qed.
Lemma no_hash_maple x : all_b not_hash x = true -> maple_at x = None.
Proof. intros H. unfold maple_at. destruct (bstrip _ x) eqn:E; [|reflexivity]. apply bstrip_app in E. subst x. discriminate H. Qed.
Lemma no_hash_work x : all_b not_hash x = true -> work_at x = None.
Proof. intros H. unfold work_at. destruct (bstrip "#include """ x) eqn:E; [|reflexivity]. apply bstrip_app in E. subst x. discriminate H. Qed.
Lemma group_found m : group_c (m +++ ".c""") = Some (m, bnil).
Proof. induction m as [|b m IH]; [reflexivity|]. cbn [bapp group_c]. rewrite IH. reflexivity. Qed.
Lemma no_slash m : all_b is_word m = true -> last_slash (m +++ ".c""") = None.
Proof.
  induction m as [|b m IH]; [reflexivity|]. cbn [all_b bapp last_slash]. rewrite andb_true_iff. intros [A B]. rewrite (IH B).
  replace (Byte.eqb b "/") with false; [reflexivity|]. destruct b; try discriminate A; reflexivity.
Qed.
Lemma slash_found d m : all_b is_word m = true -> last_slash (d +++ "/" +++ m +++ ".c""") = Some (m, bnil).
Proof.
  intros M. induction d as [|b d IH].
  - change (bnil +++ "/" +++ m +++ ".c""") with (bcons "/" (m +++ ".c""")). cbn [last_slash]. rewrite (no_slash m M). cbn. apply group_found.
  - change (bcons b d +++ "/" +++ m +++ ".c""") with (bcons b (d +++ "/" +++ m +++ ".c""")). cbn [last_slash]. rewrite IH. reflexivity.
Qed.
Lemma dot_found w : group_dot_c (w +++ ".c""") = Some (w, bnil).
Proof. induction w as [|b w IH]; [reflexivity|]. cbn [bapp group_dot_c]. rewrite IH. reflexivity. Qed.
Lemma group_len s : forall g r, group_c s = Some (g, r) -> blen r < blen s.
Proof.
  induction s as [|b s IH]; intros g r; cbn [group_c]; [discriminate|]. destruct (group_c s) as [[g' r']|].
  - intros [= <- <-]. specialize (IH _ _ eq_refl). cbn. lia.
  - destruct (bstrip "c""" s) eqn:E; [|discriminate]. intros [= <- <-]. apply bstrip_app in E. subst s. cbn. lia.
Qed.
Lemma slash_len s : forall g r, last_slash s = Some (g, r) -> blen r < blen s.
Proof.
  induction s as [|b s IH]; intros g r; cbn [last_slash]; [discriminate|]. destruct (last_slash s) as [[g' r']|].
  - intros [= <- <-]. specialize (IH _ _ eq_refl). cbn. lia.
  - destruct (Byte.eqb b "/"); [|discriminate]. intros H. apply group_len in H. cbn. lia.
Qed.
Lemma dot_len s : forall g r, group_dot_c s = Some (g, r) -> blen r < blen s.
Proof.
  assert (Z : forall t (u : bstr), bstrip ".c""" t = Some u -> blen u < blen t) by (intros t u E; apply bstrip_app in E; subst t; cbn; lia).
  induction s as [|b s IH]; intros g r; cbn [group_dot_c].
  - destruct (bstrip ".c""" bnil) eqn:E; [|discriminate]. intros [= <- <-]. apply Z, E.
  - destruct (group_dot_c s) as [[g' r']|].
    + intros [= <- <-]. specialize (IH _ _ eq_refl). cbn. lia.
    + destruct (bstrip ".c""" (bcons b s)) eqn:E; [|discriminate]. intros [= <- <-]. apply Z, E.
Qed.
Lemma maple_shorter s a r : maple_at s = Some (a, r) -> blen r < blen s.
Proof. unfold maple_at. destruct (bstrip _ s) eqn:E; [|discriminate]. apply bstrip_app in E. subst s. intros H. apply slash_len in H. rewrite blen_app. lia. Qed.
Lemma work_shorter s a r : work_at s = Some (a, r) -> blen r < blen s.
Proof.
  unfold work_at. destruct (bstrip "#include """ s) as [t|] eqn:E; [|discriminate]. apply bstrip_app in E. subst s.
  destruct (bstrip "work_" t) as [t'|] eqn:E; [|discriminate]. apply bstrip_app in E. subst t.
  destruct (group_dot_c t') as [[g r']|] eqn:E; [|discriminate]. intros [= <- <-]. apply dot_len in E. rewrite !blen_app. lia.
Qed.
Lemma maple_line l : line_ok l -> findall maple_at (line_text l) = maples [l].
Proof.
  destruct l as [d m|w|s]; cbn [line_ok line_text maples flat_map app].
  - intros [A B]. rewrite (findall_hit _ maple_shorter _ m bnil); [rewrite findall_nil by reflexivity; reflexivity|].
    unfold maple_at. rewrite bstrip_self. apply slash_found, B.
  - intros A. apply findall_none. intros u x E. destruct u as [|b u].
    + cbn [bapp] in E. subst x. reflexivity.
    + apply no_hash_maple, (all_b_suffix _ u). assert (H : "include ""work_" +++ w +++ ".c""" = u +++ x) by exact (f_equal btl E).
      rewrite <- H, !all_b_app, (all_b_imp _ _ _ word_hash A). reflexivity.
  - intros (_ & A & _). apply findall_none. intros u x ->. unfold maple_at. rewrite (absent_strip _ _ (absent_app_r _ _ _ A)). reflexivity.
Qed.
Lemma work_line l : line_ok l -> findall work_at (line_text l) = works [l].
Proof.
  destruct l as [d m|w|s]; cbn [line_ok line_text works flat_map app].
  - intros [A B]. apply findall_none. intros u x E. destruct u as [|b u].
    + cbn [bapp] in E. subst x. reflexivity.
    + apply no_hash_work, (all_b_suffix _ u). assert (H : "include ""maple2c/" +++ d +++ "/" +++ m +++ ".c""" = u +++ x) by exact (f_equal btl E).
      rewrite <- H, !all_b_app, (all_b_imp _ _ _ word_hash A), (all_b_imp _ _ _ word_hash B). reflexivity.
  - intros A. rewrite (findall_hit _ work_shorter _ ("work_" +++ w) bnil); [rewrite findall_nil by reflexivity; reflexivity|].
    unfold work_at. change ("#include ""work_" +++ w +++ ".c""")%b with ("#include """ +++ "work_" +++ w +++ ".c""")%b. rewrite !bstrip_self, dot_found. reflexivity.
  - intros (_ & _ & A). apply findall_none. intros u x ->. unfold work_at. destruct (bstrip "#include """ x) as [t|] eqn:E; [|reflexivity].
    apply bstrip_app in E. subst x. destruct (bstrip "work_" t) as [t'|] eqn:E; [|reflexivity]. apply bstrip_app in E. subst t.
    exfalso. apply (A u t'). reflexivity.
Qed.
Definition file_text (ls : list line) : bstr := join_lines (map line_text ls).
Lemma file_lines ls : ls <> [] -> Forall line_ok ls -> lines (file_text ls) = map line_text ls.
Proof.
  intros N H. apply lines_join; [destruct ls; [congruence|discriminate]|]. clear N. induction H; cbn; constructor; [apply text_newline; assumption|assumption].
Qed.
Theorem maples_found ls : ls <> [] -> Forall line_ok ls -> maple_names (file_text ls) = maples ls.
Proof.
  intros N H. unfold maple_names. rewrite (file_lines ls N H). clear N. induction H as [|l ls L _ IH]; [reflexivity|].
  cbn [map flat_map]. rewrite (maple_line l L), IH. unfold maples. cbn [flat_map]. rewrite app_nil_r. reflexivity.
Qed.
Theorem works_found ls : ls <> [] -> Forall line_ok ls -> work_names (file_text ls) = works ls.
Proof.
  intros N H. unfold work_names. rewrite (file_lines ls N H). clear N. induction H as [|l ls L _ IH]; [reflexivity|].
  cbn [map flat_map]. rewrite (work_line l L), IH. unfold works. cbn [flat_map]. rewrite app_nil_r. reflexivity.
Qed.

(** ** The wrapped file *)
(** The content of a file, as its lines, and the macro its includes call for. *)
Definition includes (content : bstr) (ms ws : list bstr) : Prop :=
  exists ls, ls <> [] /\ Forall line_ok ls /\ content = file_text ls /\ maples ls = ms /\ works ls = ws.
Definition maple_macro (ms ws : list bstr) : list macro :=
  match ms, ws with [m], [w] => [REGISTER_MAPLE w m] | _, _ => [] end.
Lemma includes_registered content ms ws : includes content ms ws -> length ms <= 1 -> length ws <= length ms ->
  exists rm, register_maple content = Ok rm /\ match rm with Some (w, m) => [REGISTER_MAPLE w m] | None => [] end = maple_macro ms ws.
Proof.
  intros (ls & N & F & -> & Em & Ew) L1 L2. unfold register_maple. rewrite (maples_found ls N F), (works_found ls N F), Em, Ew.
  destruct ms as [|m [|? ?]]; destruct ws as [|w [|? ?]]; cbn in *; try lia; eexists; (split; [reflexivity|reflexivity]).
Qed.
Lemma once_same st l : l <> [] -> (forall x, In x l -> x = st) -> once l = [st].
Proof.
  intros N H. destruct l as [|x l]; [congruence|]. cbn [once]. rewrite (H x (or_introl eq_refl)). f_equal.
  assert (G : forall y, In y (once l) -> y = st).
  { assert (I : forall l y, In y (once l) -> In y l).
    { clear. induction l as [|x l IH]; cbn; [tauto|]. intros y [->|Y]; [left; reflexivity|]. apply filter_In in Y. right. apply IH, Y. }
    intros y Y. apply H. right. apply I, Y. }
  clear N H. induction (once l) as [|y l' IH]; [reflexivity|]. cbn. rewrite (G y (or_introl eq_refl)), beqb_refl. cbn.
  apply IH. intros z Z. apply G. right. exact Z.
Qed.
Lemma filter_all {A} (f : A -> bool) l : (forall x, In x l -> f x = true) -> filter f l = l.
Proof. intros H. induction l as [|x l IH]; [reflexivity|]. cbn. rewrite (H x (or_introl eq_refl)). f_equal. apply IH. intros y Y. apply H. right. exact Y. Qed.
(** A file whose init functions allocate its one parameter struct. *)
Theorem wrapped content fs st ds tail ms ws :
  functions content fs -> fs <> [] -> (forall f, In f fs -> snd f = st) ->
  struct_text content st (body_text ds tail) -> Forall decl_ok ds -> layout_ok is_space tail ->
  includes content ms ws -> length ms <= 1 -> length ws <= length ms ->
  wrap_file content = Ok (REGISTER_PARAMS st (flat_map decl_names ds) :: map (fun f => REGISTER_INIT (fst f) st) fs ++ maple_macro ms ws).
Proof.
  intros F N S T D L I L1 L2. unfold wrap_file. rewrite (functions_found _ _ F).
  destruct (includes_registered _ _ _ I L1 L2) as (rm & -> & Em). cbn [rbind].
  assert (O : once (map snd fs) = [st]).
  { apply once_same; [destruct fs; [congruence|discriminate]|]. intros x X. apply in_map_iff in X. destruct X as (f & <- & X). apply S, X. }
  rewrite O. unfold rmap, struct_entry. rewrite (struct_found _ _ _ T), (fields_found _ _ D L). cbn [rbind].
  rewrite filter_all by (intros p P; rewrite (S p P); apply beqb_refl).
  unfold render. cbn [flat_map]. rewrite app_nil_r, map_map. cbn [app]. rewrite Em. reflexivity.
Qed.
(** A file without allocating init functions. *)
Theorem wrapped_none content ms ws : functions content [] -> includes content ms ws -> length ms <= 1 -> length ws <= length ms ->
  wrap_file content = Ok (maple_macro ms ws).
Proof.
  intros F I L1 L2. unfold wrap_file. rewrite (functions_found _ _ F).
  destruct (includes_registered _ _ _ I L1 L2) as (rm & -> & Em). cbn. rewrite Em. reflexivity.
Qed.
(** What goes wrong with the includes is reported. *)
Theorem includes_fail content ms ws : includes content ms ws -> 1 < length ms \/ 1 < length ws -> wrap_file content = Err ValueError.
Proof.
  intros (ls & N & F & -> & Em & Ew) L. unfold wrap_file, register_maple. rewrite (maples_found ls N F), (works_found ls N F), Em, Ew.
  destruct ms as [|m [|? ?]]; destruct ws as [|w [|? ?]]; cbn in *; try lia; reflexivity.
Qed.
Theorem work_without_maple content w : includes content [] [w] -> wrap_file content = Err IndexError.
Proof.
  intros (ls & N & F & -> & Em & Ew). unfold wrap_file, register_maple. rewrite (maples_found ls N F), (works_found ls N F), Em, Ew. reflexivity.
Qed.

(** A struct that is not defined exactly once. *)
Lemma once_in x l : In x l -> In x (once l).
Proof.
  induction l as [|y l IH]; [tauto|]. cbn [once]. intros [->|H]; [left; reflexivity|]. destruct (beqb y x) eqn:E; [left; apply beqb_eq, E|].
  right. apply filter_In. split; [exact (IH H)|]. rewrite E. reflexivity.
Qed.
Lemma struct_entry_errors content results s e : struct_entry content results s = Err e -> e = RuntimeError.
Proof. unfold struct_entry. destruct (struct_results s content) as [|b [|? ?]]; congruence. Qed.
Theorem struct_refused content fs st i bs ms ws :
  functions content fs -> In (i, st) fs -> st <> bnil -> starts is_space st = false -> structs st content bs -> length bs <> 1 ->
  includes content ms ws -> length ms <= 1 -> length ws <= length ms ->
  wrap_file content = Err RuntimeError.
Proof.
  intros F H N S B L I L1 L2. unfold wrap_file. rewrite (functions_found _ _ F).
  destruct (includes_registered _ _ _ I L1 L2) as (rm & -> & Em). cbn [rbind].
  assert (J : In st (once (map snd fs))) by (apply once_in; exact (in_map snd _ _ H)).
  assert (E : struct_entry content fs st = Err RuntimeError).
  { unfold struct_entry. rewrite (structs_found _ _ _ N S B). destruct bs as [|b [|? ?]]; cbn in L; [reflexivity|lia|reflexivity]. }
  induction (once (map snd fs)) as [|s l IH]; [destruct J|]. cbn [rmap]. destruct (struct_entry content fs s) as [x|e] eqn:E2; cbn [rbind].
  - destruct J as [->|J]; [congruence|]. specialize (IH J). destruct (rmap (struct_entry content fs) l) as [v|e]; cbn [rbind] in *; [discriminate|exact IH].
  - apply struct_entry_errors in E2. subst e. reflexivity.
Qed.

(** ** Loading *)
Lemma registry_of (addr : bstr -> ptr) st fields fs m : flat_map (fun m' => match m' with REGISTER_INIT i s => [(addr i, fields_of (REGISTER_PARAMS st fields :: map (fun f : bstr * bstr => REGISTER_INIT (fst f) st) fs ++ m) s)] | _ => [] end)
  (map (fun f : bstr * bstr => REGISTER_INIT (fst f) st) fs) = map (fun f => (addr (fst f), fields)) fs.
Proof.
  set (fo := fields_of _). assert (H : fo st = fields) by (unfold fo; cbn; rewrite beqb_refl; reflexivity). clearbody fo.
  induction fs as [|f fs IH]; [reflexivity|]. cbn. rewrite IH, H. reflexivity.
Qed.
Theorem loaded (addr : bstr -> ptr) st fields fs ms ws :
  registry (load addr (REGISTER_PARAMS st fields :: map (fun f => REGISTER_INIT (fst f) st) fs ++ maple_macro ms ws)) =
  map (fun f : bstr * bstr => (addr (fst f), fields)) fs.
Proof.
  unfold load, registry. cbn [flat_map app]. rewrite flat_map_app, registry_of.
  replace (flat_map _ (maple_macro ms ws)) with (@nil (ptr * list bstr)); [apply app_nil_r|].
  destruct ms as [|m [|? ?]]; destruct ws as [|w [|? ?]]; reflexivity.
Qed.
(** The parameters the extension reads for a functional whose init function is in the file: those
    of the struct, all of them. *)
Theorem params_read (addr : bstr -> ptr) st fields fs ms ws rs1 rs2 i f :
  In (i, st) fs -> x_init f = addr i -> map fst (x_struct f) = fields ->
  (forall r, In r (rs1 ++ rs2) -> ~ In (addr i) (map fst (registry r))) ->
  forall k, assoc k (get_params (link (rs1 ++ load addr (REGISTER_PARAMS st fields :: map (fun f => REGISTER_INIT (fst f) st) fs ++ maple_macro ms ws) :: rs2)) f) = assoc k (x_struct f).
Proof.
  intros I X E O k. set (rg := link _).
  assert (R : last_of (registry rg) (x_init f) = Some fields).
  { unfold rg, link, registry at 1. rewrite flat_map_app. cbn [flat_map]. rewrite loaded, X.
    assert (Z : forall rs, (forall r, In r rs -> ~ In (addr i) (map fst (registry r))) -> ~ In (addr i) (map fst (flat_map registry rs))).
    { intros rs H Y. apply in_map_iff in Y. destruct Y as (y & Y1 & Y). apply in_flat_map in Y. destruct Y as (r & Y2 & Y3). apply (H r Y2). rewrite <- Y1. apply in_map, Y3. }
    assert (Z2 := Z rs2 (fun r H => O r (in_or_app _ _ _ (or_intror H)))).
    assert (L : forall g l, last_of l (addr i) = None -> (forall p, In p g -> snd p = fields) -> In (addr i) (map fst g) -> last_of (g ++ l) (addr i) = Some fields).
    { clear. induction g as [|[a v] g IH]; intros l N H; cbn; [tauto|]. intros [->|J].
      - destruct (last_of (g ++ l) (addr i)) eqn:E; [|rewrite Nat.eqb_refl, <- (H _ (or_introl eq_refl)); reflexivity].
        destruct (proj1 (proj1 (last_of_spec (g ++ l) (addr i)) l0) E) as (l1 & l2 & E2 & _).
        destruct (in_dec Nat.eq_dec (addr i) (map fst g)) as [J|J].
        + rewrite <- E. apply IH; [exact N|intros p P; apply H; right; exact P|exact J].
        + exfalso. apply (proj1 (proj2 (last_of_spec l (addr i))) N). assert (A : In (addr i, l0) (g ++ l)) by (rewrite E2; apply in_elt).
          apply in_app_or in A. destruct A as [A|A]; [exfalso; apply J|]; exact (in_map fst _ _ A).
      - rewrite IH; [reflexivity|exact N|intros p P; apply H; right; exact P|exact J]. }
    assert (Q : last_of (map (fun f0 : bstr * bstr => (addr (fst f0), fields)) fs ++ flat_map registry rs2) (addr i) = Some fields).
    { apply L.
      - apply last_of_spec, Z2.
      - intros p P. apply in_map_iff in P. destruct P as (q & <- & _). reflexivity.
      - rewrite map_map. apply in_map_iff. exists (i, st). split; [reflexivity|exact I]. }
    destruct (proj1 (proj1 (last_of_spec _ _) _) Q) as (l1 & l2 & E1 & E2). apply last_of_spec. exists (flat_map registry rs1 ++ l1), l2. rewrite E1, <- app_assoc. auto. }
  assert (G := get_params_spec rg f). destruct G as (_ & _ & G).
  destruct (assoc k (x_struct f)) as [a|] eqn:A.
  - apply G. exists fields. split; [exact R|]. split; [|exact A]. rewrite <- E.
    clear - A. induction (x_struct f) as [|[k' a'] l IH]; cbn in *; [discriminate|]. destruct (beqb k k') eqn:B; [left; symmetry; apply beqb_eq, B|right; apply IH, A].
  - destruct (assoc k (get_params rg f)) as [a|] eqn:B; [|reflexivity]. apply G in B. destruct B as (? & _ & _ & B). congruence.
Qed.
(** A functional whose init function is registered nowhere has no parameters. *)
Theorem params_none rg f : ~ In (x_init f) (map fst (registry rg)) -> get_params rg f = [].
Proof. intros H. unfold get_params. rewrite (proj2 (proj2 (last_of_spec _ _)) H). reflexivity. Qed.
Lemma absent_check p s : find p s = None -> absent p s.
Proof.
  intros H u v E. subst s. revert H. induction u as [|b u IH]; cbn [bapp].
  - destruct (p +++ v) eqn:E; cbn [find]; rewrite <- E, bstrip_self; discriminate.
  - cbn [find]. destruct (bstrip p (bcons b (u +++ p +++ v))); [discriminate|exact IH].
Qed.

Theorem own_maple_name content m w fs st ds tail :
  functions content fs -> (fs = [] \/ (forall f, In f fs -> snd f = st) /\ struct_text content st (body_text ds tail) /\ Forall decl_ok ds /\ layout_ok is_space tail) ->
  includes content [m] [w] ->
  exists l, wrap_file content = Ok (l ++ [REGISTER_MAPLE w m]) /\ forall w' m', ~ In (REGISTER_MAPLE w' m') l.
Proof.
  intros F [->|(S & T & D & L)] I.
  - exists []. split; [|intros ? ? []]. apply (wrapped_none content [m] [w] F I); apply le_n.
  - destruct fs as [|f fs].
    + exists []. split; [|intros ? ? []]. apply (wrapped_none content [m] [w] F I); apply le_n.
    + eexists (_ :: _). split; [rewrite (wrapped content _ st ds tail [m] [w] F); try assumption; try apply le_n; [reflexivity|discriminate]|].
      intros w' m' [E|E]; [discriminate|]. apply in_map_iff in E. destruct E as (x & E & _). discriminate.
Qed.
Theorem record_names_it (addr : bstr -> ptr) m w l rs1 rs2 f : (forall w' m', ~ In (REGISTER_MAPLE w' m') l) ->
  x_aux f = None -> work_key f = Some (addr w) ->
  x_name f <> "mgga_x_2d_prhg07_prp10"%b -> x_name f <> "hyb_mgga_xc_b98"%b ->
  (forall r, In r rs2 -> ~ In (addr w) (map fst (work_to_maple_name r))) ->
  get_maple_name (link (rs1 ++ load addr (l ++ [REGISTER_MAPLE w m]) :: rs2)) f = Ok m.
Proof.
  intros H A K N1 N2 O. unfold get_maple_name. apply beqb_neq in N1, N2. rewrite N1, N2, A, K. set (rg := link _).
  assert (R : last_of (work_to_maple_name rg) (addr w) = Some m).
  { apply last_of_spec. exists (flat_map work_to_maple_name rs1), (flat_map work_to_maple_name rs2). split.
    - unfold rg, link, work_to_maple_name at 1. rewrite flat_map_app. cbn [flat_map]. f_equal. unfold load, work_to_maple_name at 1. rewrite flat_map_app. cbn [flat_map app].
      replace (flat_map _ l) with (@nil (ptr * bstr)); [reflexivity|]. clear - H. induction l as [|x l IH]; [reflexivity|]. cbn [flat_map].
      rewrite <- IH by (intros w' m' Y; apply (H w' m'); right; exact Y). destruct x; try reflexivity. exfalso. apply (H work name). left. reflexivity.
    - intros Y. apply in_map_iff in Y. destruct Y as (y & Y1 & Y). apply in_flat_map in Y. destruct Y as (r & Y2 & Y3). apply (O r Y2). rewrite <- Y1. apply in_map, Y3. }
  rewrite R. reflexivity.
Qed.
