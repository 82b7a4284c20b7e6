(** The constructors: which parameter values reach libxc (C13, C14), the attributes of hybrids
    (C15), parameter names (C26). *)
From Coq Require Import Reals List Bool Arith Strings.Byte Lia Lra.
From Verif Require Import Bytes Syntax Parser PostProcess Src Semantics Impl ImplThm Records RecordsThm RecordsThm2 RecordsThm3 ExtParams.
Import ListNotations.
Open Scope R_scope.

(** ** Dictionaries built from pairs *)
Lemma py_dict_app {A} (l : list (bstr * A)) : forall d, NoDup (keys d ++ keys l) ->
  fold_left (fun d kv => dset d (fst kv) (snd kv)) l d = d ++ l.
Proof.
  induction l as [|[k v] l IH]; intros d H; cbn [fold_left fst snd]; [rewrite app_nil_r; reflexivity|].
  unfold keys in H. cbn [map fst] in H. rewrite dset_fresh.
  - rewrite IH.
    + rewrite <- app_assoc. reflexivity.
    + unfold keys. rewrite map_app. cbn [map fst]. rewrite <- app_assoc. exact H.
  - intros Hin. apply NoDup_remove_2 in H. apply H. apply in_or_app. left. exact Hin.
Qed.
Lemma py_dict_nodup {A} (l : list (bstr * A)) : NoDup (keys l) -> py_dict l = l.
Proof. intros H. exact (py_dict_app l [] H). Qed.
Lemma dset_length {A} (d : list (bstr * A)) k v : (length (dset d k v) <= S (length d))%nat /\ (length d <= length (dset d k v))%nat /\
  (In k (keys d) -> length (dset d k v) = length d).
Proof.
  induction d as [|[a b] d IH]; cbn [dset length keys map In fst]; [repeat split; auto; intros []|].
  destruct (beqb a k) eqn:E; cbn [length]; [repeat split; auto; lia|]. destruct IH as (I1 & I2 & I3). repeat split; try lia.
  intros [H|H]; [subst a; rewrite beqb_refl in E; discriminate|]. rewrite I3; auto.
Qed.
Lemma dset_nodup {A} (d : list (bstr * A)) k v : NoDup (keys d) -> NoDup (keys (dset d k v)) /\ (forall x, In x (keys (dset d k v)) <-> x = k \/ In x (keys d)).
Proof.
  intros H. destruct (in_dec bstr_dec k (keys d)) as [Hin|Hin].
  - rewrite dset_keys by exact Hin. split; [exact H|]. intros x. split; [auto|]. intros [->|Hx]; assumption.
  - rewrite dset_fresh by exact Hin. unfold keys. rewrite map_app. cbn [map fst]. split.
    + apply (NoDup_Add (a := k) (l := map fst d)); [|split; assumption].
      rewrite <- (app_nil_r (map fst d)) at 1. apply Add_app.
    + intros x. rewrite in_app_iff. cbn. intuition.
Qed.
Lemma py_dict_gen {A} (l : list (bstr * A)) : forall d, NoDup (keys d) ->
  NoDup (keys (fold_left (fun d kv => dset d (fst kv) (snd kv)) l d)) /\
  (length (fold_left (fun d kv => dset d (fst kv) (snd kv)) l d) <= length d + length l)%nat /\
  (length (fold_left (fun d kv => dset d (fst kv) (snd kv)) l d) = (length d + length l)%nat -> NoDup (keys d ++ keys l)) /\
  (forall x, In x (keys (fold_left (fun d kv => dset d (fst kv) (snd kv)) l d)) <-> In x (keys d) \/ In x (keys l)).
Proof.
  induction l as [|[k v] l IH]; intros d H; cbn [fold_left fst snd length].
  - rewrite Nat.add_0_r. cbn [keys map]. rewrite app_nil_r. split; [exact H|]. split; [lia|]. split; [auto|]. cbn. tauto.
  - destruct (dset_nodup d k v H) as [N Sx]. destruct (IH (dset d k v) N) as (I1 & I2 & I3 & I4).
    destruct (dset_length d k v) as (L1 & L2 & L3). split; [exact I1|]. split; [lia|]. split.
    + intros E. assert (Hn : ~ In k (keys d)) by (intros Hin; apply L3 in Hin; lia).
      rewrite dset_fresh in I3 by exact Hn. rewrite app_length in I3. cbn [length] in I3.
      assert (I : NoDup (keys (d ++ [(k, v)]) ++ keys l)) by (apply I3; rewrite dset_fresh in E by exact Hn; lia).
      unfold keys in I |- *. rewrite map_app, <- app_assoc in I. exact I.
    + intros x. rewrite I4, Sx. cbn [keys map fst In]. intuition.
Qed.
Lemma py_dict_keys {A} (l : list (bstr * A)) : NoDup (keys (py_dict l)) /\ (length (py_dict l) <= length l)%nat /\
  (length (py_dict l) = length l -> NoDup (keys l)) /\ (forall x, In x (keys (py_dict l)) <-> In x (keys l)).
Proof.
  destruct (py_dict_gen l [] (NoDup_nil _)) as (H1 & H2 & H3 & H4). split; [exact H1|]. split; [exact H2|]. split; [exact H3|].
  intros x. unfold py_dict. rewrite H4. cbn. tauto.
Qed.
Lemma combine_keys {A} (l : list bstr) (m : list A) : length l = length m -> keys (combine l m) = l.
Proof. revert m. induction l as [|x l IH]; intros [|y m] H; cbn in *; try discriminate; [reflexivity|]. unfold keys in *. cbn. f_equal. apply IH. congruence. Qed.
Lemma combine_length_eq {A B} (l : list A) (m : list B) : length l = length m -> length (combine l m) = length l.
Proof. intros H. rewrite combine_length. lia. Qed.

(** ** Running the constructor *)
Lemma run_defaults_spec params : forall env k, NoDup (keys params) ->
  run_defaults params env k = match assoc k params with Some d => Some (py_or (env k) d) | None => env k end.
Proof.
  unfold run_defaults. induction params as [|[a b] params IH]; intros env k H; cbn [fold_left assoc fst snd]; [reflexivity|].
  inversion H as [|? ? Hn Hd]; subst. rewrite IH by exact Hd. destruct (beqb k a) eqn:E; [|reflexivity].
  apply beqb_eq in E. subst a. destruct (assoc k params) as [d|] eqn:Ea; [|reflexivity].
  exfalso. apply Hn. apply assoc_In in Ea. apply (in_map fst) in Ea. exact Ea.
Qed.

(** A parameter list as libxc gives it. *)
Definition params_listed (f : lib_func) : Prop := length (l_defaults f) = length (l_names f).
(** Names that can serve as arguments of the generated functions. *)
Definition arguments_ok (f : lib_func) : Prop :=
  NoDup (map param_name (l_names f)) /\
  (forall n, In n (l_names f) -> usable_name (param_name n) = true) /\
  (forall n, In n (l_names f) -> ~ In (param_name n) ["polarized"; "get_p"; "rho"; "mo"; "is_polarized"; "check_mo_shape"; "make_epsilon_xc"]%b).
(** A call that Python accepts: at most one positional argument for each parameter, the keyword
    arguments are names of other parameters, each given once. *)
Definition call_ok (f : lib_func) (pos : list (option R)) (kw : list (bstr * option R)) : Prop :=
  (length pos <= length (l_names f))%nat /\ NoDup (keys kw) /\
  forall k, In k (keys kw) -> exists i n, nth_error (l_names f) i = Some n /\ (length pos <= i)%nat /\ k = param_name n.
(** The value passed for the i-th parameter, called n by libxc. *)
Definition passed (pos : list (option R)) (kw : list (bstr * option R)) (i : nat) (n : bstr) (v : option R) : Prop :=
  nth_error pos i = Some v \/ In (param_name n, v) kw.

Lemma ext_params_eq f : params_listed f -> NoDup (map param_name (l_names f)) ->
  ext_params f = combine (map param_name (l_names f)) (l_defaults f) /\ keys (ext_params f) = map param_name (l_names f).
Proof.
  intros L N. assert (L' : length (map param_name (l_names f)) = length (l_defaults f)) by (rewrite map_length; symmetry; exact L).
  unfold ext_params. rewrite py_dict_nodup by (rewrite combine_keys; assumption). split; [reflexivity|]. apply combine_keys, L'.
Qed.
Lemma nth_combine_assoc {A} (l : list bstr) (m : list A) i k x : NoDup l -> nth_error l i = Some k -> nth_error m i = Some x ->
  assoc k (combine l m) = Some x.
Proof.
  revert m i. induction l as [|a l IH]; intros m i H Hl Hm; [destruct i; discriminate|]. destruct m as [|b m]; [destruct i; discriminate|].
  inversion H as [|? ? Hn Hd]; subst. destruct i as [|i]; cbn in Hl, Hm; cbn [combine assoc].
  - injection Hl as ->. injection Hm as ->. rewrite beqb_refl. reflexivity.
  - destruct (beqb k a) eqn:E; [|apply (IH m i); assumption]. apply beqb_eq in E. subst a.
    exfalso. apply Hn. apply nth_error_In in Hl. exact Hl.
Qed.
Lemma assoc_app {A} k (l m : list (bstr * A)) : assoc k (l ++ m) = match assoc k l with Some v => Some v | None => assoc k m end.
Proof. induction l as [|[a b] l IH]; cbn [app assoc]; [reflexivity|]. destruct (beqb k a); [reflexivity|exact IH]. Qed.
Lemma combine_firstn_keys {A} (l : list bstr) (m : list A) : (length m <= length l)%nat -> keys (combine l m) = firstn (length m) l.
Proof.
  revert m. induction l as [|x l IH]; intros [|y m] H; cbn in *; try reflexivity. unfold keys in *. cbn. f_equal. apply IH. lia.
Qed.
Lemma nth_error_firstn_in {A} (l : list A) n x : In x (firstn n l) -> exists i, (i < n)%nat /\ nth_error l i = Some x.
Proof.
  revert l. induction n as [|n IH]; intros [|y l] H; cbn in H; try contradiction. destruct H as [->|H]; [exists O; split; [lia|reflexivity]|].
  destruct (IH l H) as (i & Hi & E). exists (S i). split; [lia|exact E].
Qed.
Lemma NoDup_app_intro {A} (l m : list A) : NoDup l -> NoDup m -> (forall x, In x l -> ~ In x m) -> NoDup (l ++ m).
Proof.
  induction l as [|a l IH]; intros Hl Hm H; cbn; [exact Hm|]. inversion Hl; subst. constructor.
  - rewrite in_app_iff. intros [X|X]; [contradiction|]. exact (H a (or_introl eq_refl) X).
  - apply IH; auto. intros x Hx. apply H. right. exact Hx.
Qed.
Lemma NoDup_firstn {A} n (l : list A) : NoDup l -> NoDup (firstn n l).
Proof.
  revert l. induction n as [|n IH]; intros [|x l] H; cbn; try constructor; inversion H; subst; [|apply IH; assumption].
  intros Hin. match goal with X : ~ In x l |- _ => apply X end. rewrite <- (firstn_skipn n l). apply in_or_app. left. exact Hin.
Qed.

Lemma nth_error_combine {A B} (l : list A) (m : list B) j x y : nth_error (combine l m) j = Some (x, y) ->
  nth_error l j = Some x /\ nth_error m j = Some y.
Proof.
  revert m j. induction l as [|a l IH]; intros m j E; [destruct j; discriminate|].
  destruct m as [|b m]; [destruct j; discriminate|]. destruct j as [|j]; cbn in *; [injection E as -> ->; auto|]. apply IH, E.
Qed.

Section Bind.
Variables (f : lib_func) (pos : list (option R)) (kw : list (bstr * option R)).
Hypotheses (N : NoDup (map param_name (l_names f))) (C : call_ok f pos kw).
Let names := map param_name (l_names f).

Lemma given_nodup : NoDup (keys (combine names pos ++ kw)).
Proof.
  destruct C as (C1 & C2 & C3). unfold keys. rewrite map_app. fold (keys (combine names pos)). fold (keys kw).
  rewrite combine_firstn_keys by (unfold names; rewrite map_length; exact C1).
  apply NoDup_app_intro; [apply NoDup_firstn, N|exact C2|]. intros k H1 H2.
  apply nth_error_firstn_in in H1. destruct H1 as (i & Hi & E). destruct (C3 k H2) as (j & n & Ej & Hj & ->).
  assert (E' : nth_error names j = Some (param_name n)) by (unfold names; rewrite nth_error_map, Ej; reflexivity).
  assert (i = j); [|lia]. apply (proj1 (NoDup_nth_error names) N); [|congruence]. apply nth_error_Some. congruence.
Qed.
Lemma bind_ok : exists env, bind names pos kw = Ok env /\
  (forall i n, nth_error (l_names f) i = Some n -> forall v, passed pos kw i n v -> env (param_name n) = v) /\
  (forall i n, nth_error (l_names f) i = Some n -> (forall v, ~ passed pos kw i n v) -> env (param_name n) = None).
Proof.
  pose proof given_nodup as G. destruct C as (C1 & C2 & C3).
  unfold bind. assert (L : Nat.ltb (length names) (length pos) = false) by (apply Nat.ltb_ge; unfold names; rewrite map_length; exact C1).
  rewrite L. cbv zeta.
  assert (D : distinct (map fst (combine names pos ++ kw)) = true) by (apply distinct_NoDup, G).
  assert (K : forallb (fun k => existsb (beqb k) names) (map fst kw) = true).
  { apply forallb_forall. intros k Hk. apply existsb_key. destruct (C3 k Hk) as (i & n & E & _ & ->). apply in_map. exact (nth_error_In _ _ E). }
  rewrite D, K. cbn [andb]. eexists. split; [reflexivity|]. cbv beta. split.
  - intros i n E v [P|P].
    + rewrite assoc_app. rewrite (nth_combine_assoc names pos i (param_name n) v N); [reflexivity| |exact P].
      unfold names. rewrite nth_error_map, E. reflexivity.
    + rewrite (In_assoc (param_name n) (combine names pos ++ kw) v G); [reflexivity|]. apply in_or_app. right. exact P.
  - intros i n E P. destruct (assoc (param_name n) (combine names pos ++ kw)) as [v|] eqn:Ea; [|reflexivity]. exfalso.
    apply assoc_In in Ea. apply in_app_or in Ea. destruct Ea as [Ea|Ea]; [|exact (P v (or_intror Ea))].
    destruct (In_nth_error _ _ Ea) as (j & Ej).
    assert (Ej1 : nth_error names j = Some (param_name n) /\ nth_error pos j = Some v).
    { exact (nth_error_combine names pos j _ _ Ej). }
    assert (i = j).
    { apply (proj1 (NoDup_nth_error names) N); [apply nth_error_Some; unfold names; rewrite nth_error_map, E; discriminate|].
      rewrite (proj1 Ej1). unfold names. rewrite nth_error_map, E. reflexivity. }
    subst j. exact (P v (or_introl (proj2 Ej1))).
Qed.
End Bind.

Lemma forallb_usable f : (forall n, In n (l_names f) -> usable_name (param_name n) = true) -> forallb usable_name (map param_name (l_names f)) = true.
Proof. intros H. apply forallb_forall. intros k Hk. apply in_map_iff in Hk. destruct Hk as (n & <- & Hn). apply H, Hn. Qed.
Lemma gen_params rg heap f c : gen_ctor rg heap f = Ok c -> g_params c = ext_params f.
Proof.
  unfold gen_ctor. intros H. apply rbind_ok in H. destruct H as (p & _ & H).
  destruct (as_str _); [|discriminate]. destruct (as_str _); [|discriminate]. injection H as <-. reflexivity.
Qed.

(** The values that reach libxc: as many as there are parameters; an explicit non-zero value is
    used for the parameter it is given for; a parameter not given, or given as None, keeps its
    default; and so does a parameter given as zero. *)
Definition values_used (f : lib_func) (pos : list (option R)) (kw : list (bstr * option R)) (vs : list R) : Prop :=
  length vs = length (l_names f) /\
  forall i n d, nth_error (l_names f) i = Some n -> nth_error (l_defaults f) i = Some d ->
    (forall x, passed pos kw i n (Some x) -> x <> 0 -> nth_error vs i = Some x) /\
    ((forall x, ~ passed pos kw i n (Some x)) -> nth_error vs i = Some d) /\
    (passed pos kw i n (Some 0) -> nth_error vs i = Some d).

Lemma passed_dec pos kw i n : (exists v, passed pos kw i n v) \/ forall v, ~ passed pos kw i n v.
Proof.
  destruct (nth_error pos i) as [v|] eqn:E; [left; exists v; left; exact E|].
  destruct (in_dec bstr_dec (param_name n) (keys kw)) as [H|H].
  - left. apply in_map_iff in H. destruct H as ([k v] & Ek & H). cbn in Ek. subst k. exists v. right. exact H.
  - right. intros v [P|P]; [congruence|]. apply H. apply (in_map fst) in P. exact P.
Qed.

Lemma env_values f pos kw env0 : params_listed f -> NoDup (map param_name (l_names f)) ->
  (forall i n, nth_error (l_names f) i = Some n -> forall v, passed pos kw i n v -> env0 (param_name n) = v) ->
  (forall i n, nth_error (l_names f) i = Some n -> (forall v, ~ passed pos kw i n v) -> env0 (param_name n) = None) ->
  values_used f pos kw (values (map fst (ext_params f)) (run_defaults (ext_params f) env0)).
Proof.
  intros L N E1 E2. destruct (ext_params_eq f L N) as [X K]. unfold keys in K. split.
  - unfold values. rewrite map_length, K, map_length. reflexivity.
  - intros i n d Hn Hd.
    assert (V : nth_error (values (map fst (ext_params f)) (run_defaults (ext_params f) env0)) i = Some (py_or (env0 (param_name n)) d)).
    { unfold values. rewrite nth_error_map, K, nth_error_map, Hn. cbn [option_map]. rewrite run_defaults_spec by (unfold keys; rewrite K; exact N).
      rewrite X, (nth_combine_assoc _ _ i (param_name n) d N); [reflexivity| |exact Hd]. rewrite nth_error_map, Hn. reflexivity. }
    rewrite V. split; [|split].
    + intros x P Hx. rewrite (E1 i n Hn _ P). unfold py_or. destruct (Req_EM_T x 0); [contradiction|reflexivity].
    + intros P. destruct (passed_dec pos kw i n) as [(v & Pv)|Pn].
      * rewrite (E1 i n Hn _ Pv). destruct v as [x|]; [exfalso; exact (P x Pv)|reflexivity].
      * rewrite (E2 i n Hn Pn). reflexivity.
    + intros P. rewrite (E1 i n Hn _ P). unfold py_or. destruct (Req_EM_T 0 0); [reflexivity|congruence].
Qed.

Lemma configure_ok f ns vs : params_listed f -> length vs = length (l_names f) -> configure f ns vs = Ok (l_with f ns vs).
Proof.
  intros L E. unfold configure. destruct vs as [|v vs].
  - destruct (l_names f) eqn:En; [|discriminate]. unfold params_listed in L. rewrite En in L. destruct (l_defaults f); [reflexivity|discriminate].
  - rewrite E, Nat.eqb_refl. reflexivity.
Qed.

Theorem construct_ok rg heap f c polarized pos kw : gen_ctor rg heap f = Ok c -> params_listed f -> arguments_ok f -> call_ok f pos kw ->
  exists vs, construct f c polarized pos kw = Ok (l_with f (if polarized then 2%nat else 1%nat) vs) /\ values_used f pos kw vs.
Proof.
  intros G L (A1 & A2 & A3) C. destruct (ext_params_eq f L A1) as [X K]. unfold keys in K.
  destruct (bind_ok f pos kw A1 C) as (env & B & E1 & E2).
  unfold construct, def_ok. rewrite (gen_params _ _ _ _ G), K, (forallb_usable f A2). cbn [andb].
  assert (D : distinct (main_fixed ++ map param_name (l_names f)) = true).
  { apply distinct_NoDup. constructor; [|exact A1]. intros H. apply in_map_iff in H. destruct H as (n & En & Hn). apply (A3 n Hn). rewrite En. left. reflexivity. }
  rewrite D, B. cbn [rbind].
  assert (P : existsb (beqb "get_p") (map param_name (l_names f)) = false).
  { destruct (existsb _ _) eqn:E; [|reflexivity]. apply existsb_key in E. apply in_map_iff in E. destruct E as (n & En & Hn).
    exfalso. apply (A3 n Hn). rewrite En. right. left. reflexivity. }
  rewrite P. pose proof (env_values f pos kw env L A1 E1 E2) as V. rewrite K in V.
  exists (values (map param_name (l_names f)) (run_defaults (ext_params f) env)). split; [|exact V].
  apply configure_ok; [exact L|exact (proj1 V)].
Qed.

Theorem explicit_values :
  forall rg heap f c polarized pos kw, gen_ctor rg heap f = Ok c -> params_listed f -> arguments_ok f -> call_ok f pos kw ->
  exists vs, construct f c polarized pos kw = Ok (l_with f (if polarized then 2%nat else 1%nat) vs) /\
    forall i n x, nth_error (l_names f) i = Some n -> passed pos kw i n (Some x) -> x <> 0 -> nth_error vs i = Some x.
Proof.
  intros rg heap f c polarized pos kw G L A C. destruct (construct_ok rg heap f c polarized pos kw G L A C) as (vs & E & _ & V). exists vs. split; [exact E|].
  intros i n x Hn P Hx. destruct (nth_error (l_defaults f) i) as [d|] eqn:Hd; [exact (proj1 (V i n d Hn Hd) x P Hx)|]. exfalso.
  apply nth_error_None in Hd. unfold params_listed in L. rewrite L in Hd. assert (i < length (l_names f))%nat by (apply nth_error_Some; congruence). lia.
Qed.
Theorem explicit_zero :
  forall rg heap f c polarized pos kw, gen_ctor rg heap f = Ok c -> params_listed f -> arguments_ok f -> call_ok f pos kw ->
  exists vs, construct f c polarized pos kw = Ok (l_with f (if polarized then 2%nat else 1%nat) vs) /\
    forall i n d, nth_error (l_names f) i = Some n -> nth_error (l_defaults f) i = Some d -> passed pos kw i n (Some 0) ->
    nth_error vs i = Some d.
Proof.
  intros rg heap f c polarized pos kw G L A C. destruct (construct_ok rg heap f c polarized pos kw G L A C) as (vs & E & _ & V). exists vs. split; [exact E|].
  intros i n d Hn Hd P. exact (proj2 (proj2 (V i n d Hn Hd)) P).
Qed.
Theorem exp_construct_ok rg heap f c polarized kw : gen_ctor rg heap f = Ok c -> params_listed f -> arguments_ok f -> call_ok f [] kw ->
  exists vs, exp_construct f c polarized kw = Ok (l_with f (if polarized then 2%nat else 1%nat) vs) /\ values_used f [] kw vs.
Proof.
  intros G L (A1 & A2 & A3) C. destruct (ext_params_eq f L A1) as [X K]. unfold keys in K.
  destruct (bind_ok f [] kw A1 C) as (env & B & E1 & E2).
  assert (Out : forall k, In k ["polarized"; "get_p"; "rho"; "mo"; "is_polarized"; "check_mo_shape"; "make_epsilon_xc"]%b -> ~ In k (map param_name (l_names f))).
  { intros k Hk H. apply in_map_iff in H. destruct H as (n & En & Hn). apply (A3 n Hn). rewrite En. exact Hk. }
  unfold exp_construct, def_ok. rewrite (gen_params _ _ _ _ G), K, (forallb_usable f A2). cbn [andb].
  assert (D : distinct (exp_fixed c ++ map param_name (l_names f)) = true).
  { apply distinct_NoDup. apply NoDup_app_intro; [|exact A1|].
    - unfold exp_fixed. destruct (beqb _ _); apply distinct_NoDup; reflexivity.
    - intros k Hk. apply Out. unfold exp_fixed in Hk. destruct (beqb _ _); cbn [In] in Hk |- *; tauto. }
  rewrite D, B. cbn [rbind].
  assert (P : existsb (fun k => existsb (beqb k) (map param_name (l_names f))) (exp_hidden c) = false).
  { destruct (existsb _ _) eqn:E; [|reflexivity]. apply existsb_exists in E. destruct E as (k & Hk & E). apply existsb_key in E.
    exfalso. apply (Out k); [|exact E]. unfold exp_hidden in Hk. destruct (beqb _ _); cbn [In] in Hk |- *; tauto. }
  rewrite P. pose proof (env_values f [] kw env L A1 E1 E2) as V. rewrite K in V.
  exists (values (map param_name (l_names f)) (run_defaults (ext_params f) env)). split; [|exact V].
  apply configure_ok; [exact L|exact (proj1 V)].
Qed.

(** A keyword that is no parameter name, or too many positional arguments, is rejected. *)
Theorem construct_unknown_keyword f c polarized pos kw k v : def_ok main_fixed c = true -> In (k, v) kw -> ~ In k (keys (g_params c)) ->
  construct f c polarized pos kw = Err TypeError.
Proof.
  intros D H Hn. unfold construct. rewrite D. cbv zeta. unfold bind. destruct (Nat.ltb _ _); [reflexivity|].
  assert (E : forallb (fun k => existsb (beqb k) (map fst (g_params c))) (map fst kw) = false).
  { destruct (forallb _ _) eqn:E; [|reflexivity]. rewrite forallb_forall in E. specialize (E k (in_map fst _ _ H)).
    apply existsb_key in E. contradiction. }
  rewrite E, andb_false_r. reflexivity.
Qed.

(** Two libxc names that become the same Python name: libxc is given too few values and every
    call fails. *)
Theorem construct_collision rg heap f c polarized pos kw x : gen_ctor rg heap f = Ok c -> params_listed f ->
  ~ NoDup (map param_name (l_names f)) -> construct f c polarized pos kw = Ok x -> False.
Proof.
  intros G L D H. unfold construct in H. destruct (def_ok main_fixed c); [|discriminate]. cbv zeta in H.
  apply rbind_ok in H. destruct H as (env & _ & H). destruct (existsb _ _); [discriminate|].
  rewrite (gen_params _ _ _ _ G) in H. unfold configure in H.
  assert (L' : length (map param_name (l_names f)) = length (l_defaults f)) by (rewrite map_length; symmetry; exact L).
  destruct (py_dict_keys (combine (map param_name (l_names f)) (l_defaults f))) as (_ & K2 & K3 & K4).
  rewrite combine_keys in K3, K4 by exact L'. rewrite combine_length_eq in K2, K3 by exact L'. rewrite map_length in K2, K3.
  fold (ext_params f) in K2, K3, K4.
  assert (Hlen : length (values (map fst (ext_params f)) (run_defaults (ext_params f) env)) = length (ext_params f)) by (unfold values; rewrite !map_length; reflexivity).
  destruct (values _ _) as [|v vs] eqn:Ev.
  - assert (E0 : ext_params f = []) by (destruct (ext_params f); [reflexivity|discriminate]).
    destruct (l_names f) as [|n l] eqn:En; [apply D; constructor|].
    assert (Hin : In (param_name n) (keys (ext_params f))) by (apply K4; left; reflexivity). rewrite E0 in Hin. exact Hin.
  - rewrite Hlen in H. destruct (Nat.eqb _ _) eqn:E; [|discriminate]. apply Nat.eqb_eq in E. exact (D (K3 E)).
Qed.
