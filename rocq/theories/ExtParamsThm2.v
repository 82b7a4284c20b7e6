(** Attributes of the callables of hybrids (C15) and parameter names (C26). *)
From Coq Require Import Reals List Bool Arith Strings.Byte Lia Lra.
From Verif Require Import Bytes Syntax Parser PostProcess Src Semantics Impl ImplThm Records RecordsThm RecordsThm2 RecordsThm3 ExtParams ExtParamsThm.
Import ListNotations.
Open Scope R_scope.

(** ** C15 *)
Section Attrs.
Variables (rg : registries) (heap : nat -> list R).

Lemma get_record_read x r : get_record rg heap x = Ok r -> exists p, func_of rg heap x = Ok p /\ reads r p.
Proof.
  unfold get_record. intros H. apply rbind_ok in H. destruct H as (v & Hv & H). unfold dict_to_namedtuple in H.
  destruct v; try discriminate. exact (record_read rg heap x _ _ r Hv H).
Qed.
Lemma func_of_fields x p : func_of rg heap x = Ok p -> fp_scal p = x_scal x /\ get_maple_name rg x = Ok (fp_maple p) /\
  name_to_type (x_name x) = Ok (fp_type p) /\ fp_nspin p = x_nspin x.
Proof.
  rewrite func_of_unfold. intros H. apply rbind_ok in H. destruct H as (m & Em & H). apply rbind_ok in H. destruct H as (t & Et & H).
  destruct x as [nm lda gga mgga init scal ns str aux mix]. cbn [x_aux x_name x_scal x_nspin x_mix] in *.
  destruct aux as [[|g l]|].
  - injection H as <-. auto.
  - apply rbind_ok in H. destruct H as (ps & _ & H). injection H as <-. auto.
  - injection H as <-. auto.
Qed.
Lemma read_scalars_attrs r s : read_scalars r = Some s ->
  getattr r "cam_alpha" = Some (VFloat (cam_alpha s)) /\ getattr r "cam_beta" = Some (VFloat (cam_beta s)) /\
  getattr r "cam_omega" = Some (VFloat (cam_omega s)) /\ getattr r "nlc_b" = Some (VFloat (nlc_b s)) /\ getattr r "nlc_C" = Some (VFloat (nlc_C s)).
Proof.
  unfold read_scalars. intros H.
  repeat match type of H with context [as_num (getattr r ?k)] => let E := fresh "E" in destruct (as_num (getattr r k)) eqn:E; [|discriminate] end.
  injection H as <-. cbn [cam_alpha cam_beta cam_omega nlc_b nlc_C].
  assert (K : forall k x, as_num (getattr r k) = Some x -> getattr r k = Some (VFloat x)).
  { intros k x Hk. destruct (getattr r k) as [[]|]; cbn in Hk; try discriminate. congruence. }
  repeat split; apply K; assumption.
Qed.
Lemma read_hybrid r s : read_scalars r = Some s -> read_attrs r hybrid_names = Ok
  [("cam_alpha", VFloat (cam_alpha s)); ("cam_beta", VFloat (cam_beta s)); ("cam_omega", VFloat (cam_omega s));
   ("nlc_b", VFloat (nlc_b s)); ("nlc_C", VFloat (nlc_C s))]%b.
Proof. intros H. destruct (read_scalars_attrs r s H) as (E1 & E2 & E3 & E4 & E5). cbn [read_attrs hybrid_names]. rewrite E1, E2, E3, E4, E5. reflexivity. Qed.
Lemma reads_basic r p : reads r p -> read_scalars r = Some (fp_scal p) /\ getattr r "maple_name" = Some (VStr (fp_maple p)) /\ getattr r "type" = Some (VStr (fp_type p)).
Proof. intros H. destruct H; auto. Qed.

(** What the callable of a functional shows. *)
Definition shows (s : scalars) (attrs : list (bstr * pval)) : Prop :=
  assoc "cam_alpha" attrs = Some (VFloat (cam_alpha s)) /\ assoc "cam_beta" attrs = Some (VFloat (cam_beta s)) /\
  assoc "cam_omega" attrs = Some (VFloat (cam_omega s)) /\ assoc "nlc_b" attrs = Some (VFloat (nlc_b s)) /\
  assoc "nlc_C" attrs = Some (VFloat (nlc_C s)).

Lemma gen_ctor_maple f c : gen_ctor rg heap f = Ok c -> get_maple_name rg (l_with f 1 (l_defaults f)) = Ok (g_maple c).
Proof.
  unfold gen_ctor. intros H. apply rbind_ok in H. destruct H as (r & Hr & H).
  destruct (get_record_read _ _ Hr) as (p & Hp & Rp). destruct (reads_basic _ _ Rp) as (_ & Em & Et).
  destruct (func_of_fields _ _ Hp) as (_ & Ep & _). rewrite Em, Et in H. cbn [as_str] in H. injection H as <-. exact Ep.
Qed.
(** Modules registered for work functions have a name. *)
Definition modules_named : Prop := forall k m, In (k, m) (work_to_maple_name rg) -> m <> ""%b.
Lemma empty_maple x : modules_named -> (get_maple_name rg x = Ok ""%b <-> ~ special (x_name x) /\ x_aux x <> None).
Proof.
  intros M. split.
  - intros H. assert (S : ~ special (x_name x)).
    { intros S. destruct (resolution_special rg x) as [S1 S2]. destruct S as [S|S]; [rewrite (S1 S) in H|rewrite (S2 S) in H]; discriminate. }
    split; [exact S|]. intros A. destruct (resolution rg x S) as (_ & R & _). destruct (proj1 (R A ""%b) H) as (k & l1 & l2 & _ & E & _).
    apply (M k ""%b); [|reflexivity]. rewrite E. apply in_or_app. right. left. reflexivity.
  - intros [S A]. exact (proj1 (resolution rg x S) A).
Qed.
Theorem mixture_attrs f c x r : modules_named -> gen_ctor rg heap f = Ok c -> get_record rg heap x = Ok r ->
  ~ special (x_name (l_with f 1 (l_defaults f))) -> x_aux (l_with f 1 (l_defaults f)) <> None ->
  exists attrs, callable_attrs rg heap c x = Ok attrs /\ shows (x_scal x) attrs.
Proof.
  intros M G R S A. pose proof (gen_ctor_maple f c G) as E.
  assert (E0 : g_maple c = ""%b) by (pose proof (proj2 (empty_maple _ M) (conj S A)); congruence).
  unfold callable_attrs. rewrite R, E0. cbn [rbind]. rewrite beqb_refl.
  destruct (get_record_read _ _ R) as (p & Hp & Rp). destruct (reads_basic _ _ Rp) as (Es & _). destruct (func_of_fields _ _ Hp) as (Ep & _).
  rewrite (read_hybrid _ _ Es), Ep. eexists. split; [reflexivity|]. repeat split.
Qed.
(** Every other functional, hybrid or not, gets none of the attributes. *)
Theorem single_attrs f c x r : modules_named -> gen_ctor rg heap f = Ok c -> get_record rg heap x = Ok r ->
  special (x_name (l_with f 1 (l_defaults f))) \/ x_aux (l_with f 1 (l_defaults f)) = None ->
  callable_attrs rg heap c x = Ok [].
Proof.
  intros M G R H. pose proof (gen_ctor_maple f c G) as E. unfold callable_attrs. rewrite R. cbn [rbind].
  destruct (beqb (g_maple c) "") eqn:E0; [|reflexivity]. apply beqb_eq in E0. rewrite E0 in E. apply (empty_maple _ M) in E.
  destruct H; destruct E; contradiction.
Qed.
Theorem exp_mixture_attrs x r : get_record rg heap x = Ok r -> ~ special (x_name x) -> x_aux x <> None ->
  exists attrs, exp_callable_attrs rg heap x = Ok attrs /\ shows (x_scal x) attrs.
Proof.
  intros R S A. destruct (get_record_read _ _ R) as (p & Hp & Rp). destruct (reads_basic _ _ Rp) as (Es & Em & _). destruct (func_of_fields _ _ Hp) as (Ep & En & _).
  rewrite (proj1 (resolution rg x S) A) in En. injection En as En. unfold exp_callable_attrs. rewrite R. cbn [rbind]. rewrite Em. cbn [as_str]. rewrite <- En, beqb_refl.
  rewrite (read_hybrid _ _ Es), Ep. eexists. split; [reflexivity|]. repeat split.
Qed.
End Attrs.

(** ** C26 *)

(** Names as libxc writes them: an identifier, or an identifier with an index in brackets. *)
Definition indexed (s d : bstr) : bstr := s +++ bcons "[" (d +++ "]").
Definition underscored (s d : bstr) : bstr := s +++ bcons "_" (d +++ "_").
Definition digits (d : bstr) : Prop := d <> bnil /\ all_bytes is_digit d = true.
Inductive libxc_name : bstr -> Prop :=
| name_plain s : identifier s = true -> libxc_name s
| name_indexed s d : identifier s = true -> digits d -> libxc_name (indexed s d).

Lemma all_bytes_app f s t : all_bytes f (s +++ t) = all_bytes f s && all_bytes f t.
Proof. induction s as [|b s IH]; cbn [bapp all_bytes]; [reflexivity|]. rewrite IH. apply andb_assoc. Qed.
Lemma all_bytes_imp (f g : byte -> bool) s : (forall b, f b = true -> g b = true) -> all_bytes f s = true -> all_bytes g s = true.
Proof. intros H. induction s as [|b s IH]; cbn [all_bytes]; [auto|]. rewrite !andb_true_iff. intros [A B]. auto. Qed.
Lemma identifier_word s : identifier s = true -> all_bytes is_word s = true.
Proof.
  destruct s as [|b s]; [discriminate|]. cbn [identifier all_bytes]. rewrite !andb_true_iff. intros [A B]. split; [|exact B].
  rewrite is_word_spec, A. reflexivity.
Qed.
Lemma match_index_none b s : Byte.eqb "[" b = false -> match_index (bcons b s) = None.
Proof. intros H. unfold match_index. cbn [bstrip]. rewrite H. reflexivity. Qed.
Lemma span_digits d r : all_bytes is_digit d = true -> (forall b t, r = bcons b t -> is_digit b = false) -> span is_digit (d +++ r) = (d, r).
Proof.
  induction d as [|b d IH]; cbn [all_bytes bapp span]; intros H Hr.
  - destruct r as [|b t]; [reflexivity|]. cbn [span]. rewrite (Hr b t eq_refl). reflexivity.
  - apply andb_prop in H. destruct H as [H1 H2]. rewrite H1, (IH H2 Hr). reflexivity.
Qed.
Definition no_bracket (b : byte) : bool := negb (Byte.eqb "[" b).
Lemma word_no_bracket b : is_word b = true -> no_bracket b = true.
Proof. unfold no_bracket. destruct (Byte.eqb "[" b) eqn:E; [|reflexivity]. apply byte_eqb_eq in E. subst b. intros H. discriminate H. Qed.
Lemma sub_index_fuel_plain n s t : all_bytes no_bracket s = true -> sub_index_fuel (blen s + n) (s +++ t) = s +++ sub_index_fuel n t.
Proof.
  induction s as [|b s IH]; cbn [all_bytes bapp blen Nat.add]; intros H; [reflexivity|].
  apply andb_prop in H. destruct H as [H1 H2]. cbn [sub_index_fuel]. rewrite match_index_none by (apply negb_true_iff, H1).
  rewrite IH by exact H2. reflexivity.
Qed.
Lemma sub_index_plain s : all_bytes is_word s = true -> sub_index s = s.
Proof.
  intros H. unfold sub_index. rewrite <- (bapp_nil_r s) at 2. replace (S (blen s)) with (blen s + 1)%nat by lia.
  rewrite sub_index_fuel_plain by (exact (all_bytes_imp _ _ _ word_no_bracket H)). cbn. apply bapp_nil_r.
Qed.
Lemma blen_pos n : exists m, (n + 1 = S m)%nat. Proof. exists n. lia. Qed.
Lemma sub_index_indexed s d : all_bytes is_word s = true -> digits d -> sub_index (indexed s d) = underscored s d.
Proof.
  intros H [Hd1 Hd2]. unfold sub_index, indexed, underscored.
  replace (S (blen (s +++ bcons "[" (d +++ "]")))) with (blen s + S (S (S (blen d))))%nat by (rewrite blen_app; cbn [blen]; rewrite blen_app; cbn [blen]; lia).
  rewrite sub_index_fuel_plain by (exact (all_bytes_imp _ _ _ word_no_bracket H)). f_equal.
  cbn [sub_index_fuel]. unfold match_index. cbn [bstrip Byte.eqb]. rewrite byte_eqb_refl.
  rewrite span_digits by (try exact Hd2; intros b t E; injection E as <- _; reflexivity).
  destruct d as [|b d]; [congruence|]. cbn [bstrip]. rewrite byte_eqb_refl. cbn [bapp sub_index_fuel bstrip match_index]. f_equal. f_equal.
  rewrite bapp_nil_r. reflexivity.
Qed.

(** The two rules on "lambda". *)
Fixpoint no_l (s : bstr) : bool := match s with bnil => true | bcons b s => negb (Byte.eqb "l" b) && no_l s end.
Lemma pmatch_lits p s : pmatch (lits p) s = bstrip p s.
Proof. revert s. induction p as [|a p IH]; intros [|b s]; cbn [lits pmatch bstrip]; try reflexivity. destruct (Byte.eqb a b); [apply IH|reflexivity]. Qed.
Lemma strip_none s : bstrip "lambda" s = None -> forall b t, s = bcons b t -> b <> "l"%byte \/ bstrip "ambda" t = None.
Proof.
  intros H b t ->. destruct (Byte.eqb "l" b) eqn:E.
  - right. cbn [bstrip] in H |- *. rewrite E in H. exact H.
  - left. intros ->. rewrite byte_eqb_refl in E. discriminate.
Qed.
(** Text without an l at the beginning of the result comes from the source text. *)
Lemma sub_prefix p : forall n s r, no_l p = true -> (blen s < n)%nat -> bstrip p (sub_fuel n (lits "lambda") "lambda_" s) = Some r ->
  exists s', s = p +++ s'.
Proof.
  induction p as [|a p IH]; intros n s r Hp Hn H; [exists s; reflexivity|].
  cbn [no_l] in Hp. apply andb_prop in Hp. destruct Hp as [Ha Hp]. apply negb_true_iff in Ha.
  destruct n as [|n]; [lia|]. cbn [sub_fuel] in H. rewrite pmatch_lits in H. destruct (bstrip "lambda" s) as [s'|] eqn:E.
  - cbn [bapp bstrip] in H. destruct (Byte.eqb a "l") eqn:El; [|discriminate]. apply byte_eqb_eq in El. subst a. rewrite byte_eqb_refl in Ha. discriminate.
  - destruct s as [|b s]; [discriminate|]. cbn [bstrip] in H. destruct (Byte.eqb a b) eqn:El; [|discriminate]. apply byte_eqb_eq in El. subst b.
    cbn [blen] in Hn. destruct (IH n s r Hp ltac:(lia) H) as (s' & ->). exists s'. reflexivity.
Qed.
Lemma bstrip_trunc p q s r : bstrip (p +++ q) s = Some r -> bstrip p s <> None.
Proof.
  revert s. induction p as [|a p IH]; intros s H; [discriminate|]. destruct s as [|b s]; [discriminate|].
  cbn [bapp bstrip] in *. destruct (Byte.eqb a b); [exact (IH s H)|discriminate].
Qed.
(** Replacing back undoes the replacement. *)
Lemma sub_back : forall n s m, (blen s < n)%nat -> (blen (sub_fuel n (lits "lambda") "lambda_" s) < m)%nat ->
  sub_fuel m (lits "lambda_") "lambda" (sub_fuel n (lits "lambda") "lambda_" s) = s.
Proof.
  induction n as [|n IH]; intros s m Hn Hm; [lia|]. cbn [sub_fuel] in Hm |- *. rewrite pmatch_lits in Hm |- *.
  destruct (bstrip "lambda" s) as [s'|] eqn:E.
  - apply bstrip_app in E. subst s. destruct m as [|m]; [lia|]. cbn [sub_fuel]. rewrite pmatch_lits.
    rewrite (proj2 (bstrip_app "lambda_" _ _) eq_refl). rewrite IH; [reflexivity|cbn [bapp blen] in Hn; lia|cbn [bapp blen] in Hm; lia].
  - destruct s as [|b s]; [destruct m; reflexivity|]. destruct m as [|m]; [lia|]. cbn [sub_fuel]. rewrite pmatch_lits.
    cbn [blen] in Hn, Hm.
    destruct (bstrip "lambda_" (bcons b (sub_fuel n (lits "lambda") "lambda_" s))) as [r|] eqn:Eb; [|rewrite IH; [reflexivity|lia|lia]].
    exfalso. change ("lambda_"%b) with (bcons "l" ("ambda_"%b)) in Eb. cbn [bstrip] in Eb. destruct (Byte.eqb "l" b) eqn:El; [|discriminate]. apply byte_eqb_eq in El. subst b.
    change (bstrip "ambda_" (sub_fuel n (lits "lambda") "lambda_" s) = Some r) in Eb.
    destruct (bstrip "ambda" (sub_fuel n (lits "lambda") "lambda_" s)) as [r'|] eqn:Ea.
    + destruct (sub_prefix "ambda" n s r' eq_refl ltac:(lia) Ea) as (s' & ->). cbn in E. discriminate.
    + exact (bstrip_trunc "ambda" "_" _ _ Eb Ea).
Qed.
Lemma sub_lambda_inj s t : sub_lambda s = sub_lambda t -> s = t.
Proof.
  unfold sub_lambda, sub_lit. intros H.
  set (a := sub_fuel (S (blen s)) (lits "lambda") "lambda_" s) in *. set (b := sub_fuel (S (blen t)) (lits "lambda") "lambda_" t) in *.
  rewrite <- (sub_back (S (blen s)) s (S (blen a)) (Nat.lt_succ_diag_r _) (Nat.lt_succ_diag_r _)).
  rewrite <- (sub_back (S (blen t)) t (S (blen b)) (Nat.lt_succ_diag_r _) (Nat.lt_succ_diag_r _)).
  fold a. fold b. rewrite H. reflexivity.
Qed.
Lemma sub_lambda_word : forall n s, all_bytes is_word s = true -> all_bytes is_word (sub_fuel n (lits "lambda") "lambda_" s) = true.
Proof.
  induction n as [|n IH]; intros s H; [exact H|]. cbn [sub_fuel]. rewrite pmatch_lits. destruct (bstrip "lambda" s) as [s'|] eqn:E.
  - apply bstrip_app in E. subst s. rewrite all_bytes_app in H |- *. apply andb_prop in H. apply andb_true_intro. split; [reflexivity|apply IH, H].
  - destruct s as [|b s]; [reflexivity|]. cbn [all_bytes] in H |- *. apply andb_prop in H. apply andb_true_intro. split; [apply H|apply IH, H].
Qed.
Lemma sub_lambda_identifier s : identifier s = true -> identifier (sub_lambda s) = true.
Proof.
  intros H. unfold sub_lambda, sub_lit. cbn [sub_fuel]. rewrite pmatch_lits. destruct (bstrip "lambda" s) as [s'|] eqn:E.
  - apply bstrip_app in E. subst s. apply identifier_word in H. rewrite all_bytes_app in H. apply andb_prop in H.
    cbn [bapp identifier]. apply andb_true_intro. split; [reflexivity|]. cbn [all_bytes]. cbn [andb is_word].
    change (all_bytes is_word (sub_fuel (blen ("lambda" +++ s')) (lits "lambda") "lambda_" s') = true). apply sub_lambda_word, H.
  - destruct s as [|b s]; [discriminate|]. cbn [identifier] in H |- *. apply andb_prop in H. apply andb_true_intro. split; [apply H|].
    apply sub_lambda_word, H.
Qed.
(** Either nothing is replaced, or "lambda_" occurs in the result. *)
Lemma sub_lambda_cases : forall n s, sub_fuel n (lits "lambda") "lambda_" s = s \/
  exists a b, sub_fuel n (lits "lambda") "lambda_" s = a +++ "lambda_" +++ b.
Proof.
  induction n as [|n IH]; intros s; [left; reflexivity|]. cbn [sub_fuel]. rewrite pmatch_lits. destruct (bstrip "lambda" s) as [s'|].
  - right. exists bnil. eexists. reflexivity.
  - destruct s as [|b s]; [left; reflexivity|]. destruct (IH s) as [->|(x & y & ->)]; [left; reflexivity|]. right. exists (bcons b x), y. reflexivity.
Qed.
Fixpoint occurs (p s : bstr) : bool := bprefix p s || match s with bnil => false | bcons _ s => occurs p s end.
Lemma occurs_app p a b : occurs p (a +++ p +++ b) = true.
Proof.
  induction a as [|x a IH]; cbn [bapp].
  - assert (E : bprefix p (p +++ b) = true) by (unfold bprefix; rewrite (proj2 (bstrip_app p _ b) eq_refl); reflexivity).
    destruct (p +++ b); cbn [occurs]; rewrite E; reflexivity.
  - cbn [occurs]. rewrite IH. apply orb_true_r.
Qed.
Lemma sub_lambda_keyword s : In (sub_lambda s) keywords -> sub_lambda s = s.
Proof.
  intros H. unfold sub_lambda, sub_lit in *. destruct (sub_lambda_cases (S (blen s)) s) as [E|(a & b & E)]; [exact E|]. exfalso.
  rewrite E in H. assert (K : forallb (fun k => negb (occurs "lambda_" k)) keywords = true) by reflexivity.
  rewrite forallb_forall in K. specialize (K _ H). cbv beta in K. rewrite (occurs_app "lambda_" a b) in K. discriminate.
Qed.

Fixpoint ends_us (s : bstr) : bool := match s with bnil => false | bcons b bnil => Byte.eqb b "_" | bcons _ s => ends_us s end.
Lemma ends_us_app a : ends_us (a +++ "_") = true.
Proof. induction a as [|b a IH]; [reflexivity|]. cbn [bapp ends_us]. destruct (a +++ "_") eqn:E; [destruct a; discriminate|exact IH]. Qed.
Lemma underscored_not_keyword s d : ~ In (underscored s d) keywords.
Proof.
  intros H. assert (K : forallb (fun k => negb (ends_us k)) keywords = true) by reflexivity. rewrite forallb_forall in K. specialize (K _ H).
  cbv beta in K. unfold underscored in K. change (bcons "_" (d +++ "_")) with (("_" +++ d) +++ "_") in K. rewrite <- bapp_assoc, ends_us_app in K. discriminate.
Qed.
Lemma underscored_identifier s d : identifier s = true -> digits d -> identifier (underscored s d) = true.
Proof.
  intros H [_ Hd]. destruct s as [|b s]; [discriminate|]. unfold underscored. cbn [bapp identifier] in *. apply andb_prop in H. apply andb_true_intro.
  split; [apply H|]. rewrite all_bytes_app. apply andb_true_intro. split; [apply H|]. cbn [all_bytes]. rewrite all_bytes_app.
  rewrite (all_bytes_imp is_digit is_word d); [reflexivity| |exact Hd]. intros c Hc. rewrite is_word_spec, Hc. apply orb_true_r.
Qed.
Lemma usable_iff s : usable_name s = true <-> identifier s = true /\ ~ In s keywords.
Proof.
  unfold usable_name. rewrite andb_true_iff, negb_true_iff. split; intros [A B]; (split; [exact A|]).
  - intros H. apply existsb_key in H. congruence.
  - destruct (existsb _ _) eqn:E; [|reflexivity]. apply existsb_key in E. contradiction.
Qed.
Theorem param_name_usable n : libxc_name n -> ~ (In n keywords /\ n <> "lambda"%b) -> usable_name (param_name n) = true.
Proof.
  intros H K. apply usable_iff. unfold param_name. destruct H as [s H|s d H Hd].
  - rewrite sub_index_plain by (apply identifier_word, H). split; [apply sub_lambda_identifier, H|].
    intros Hin. pose proof (sub_lambda_keyword s Hin) as E. rewrite E in Hin. apply K. split; [exact Hin|]. intros ->. discriminate E.
  - rewrite sub_index_indexed by (try apply identifier_word; assumption). split; [apply sub_lambda_identifier, underscored_identifier; assumption|].
    intros Hin. rewrite (sub_lambda_keyword _ Hin) in Hin. exact (underscored_not_keyword _ _ Hin).
Qed.
(** A Python keyword other than lambda stays one, and cannot be an argument. *)
Theorem param_name_keyword n : In n keywords -> n <> "lambda"%b -> param_name n = n /\ usable_name (param_name n) = false.
Proof.
  intros H Hn. assert (E : param_name n = n).
  { assert (K : forallb (fun k => beqb k "lambda" || beqb (param_name k) k) keywords = true) by reflexivity.
    rewrite forallb_forall in K. specialize (K n H). cbv beta in K. apply orb_prop in K. destruct K as [K|K]; apply beqb_eq in K; [contradiction|exact K]. }
  split; [exact E|]. rewrite E. destruct (usable_name n) eqn:U; [|reflexivity]. apply usable_iff in U. destruct U as [_ U]. contradiction.
Qed.

Lemma digits_no_us d a b : all_bytes is_digit d = true -> d = a +++ bcons "_" b -> False.
Proof. intros H ->. rewrite all_bytes_app in H. apply andb_prop in H. destruct H as [_ H]. discriminate H. Qed.
Lemma us_split : forall s t d e, all_bytes is_digit d = true -> all_bytes is_digit e = true ->
  s +++ bcons "_" d = t +++ bcons "_" e -> s = t /\ d = e.
Proof.
  induction s as [|a s IH]; intros [|b t] d e Hd He H; cbn [bapp] in H.
  - injection H as ->. auto.
  - exfalso. injection H as _ H. exact (digits_no_us d _ _ Hd H).
  - exfalso. injection H as _ H. symmetry in H. exact (digits_no_us e _ _ He H).
  - injection H as -> H. destruct (IH t d e Hd He H) as [-> ->]. auto.
Qed.
Lemma last_cancel s t c : s +++ bcons c bnil = t +++ bcons c bnil -> s = t.
Proof.
  revert t. induction s as [|a s IH]; intros [|b t] H; cbn [bapp] in H; try reflexivity.
  - injection H as _ H. destruct t; discriminate.
  - injection H as _ H. destruct s; discriminate.
  - injection H as -> H. f_equal. apply IH, H.
Qed.
Lemma underscored_inj s t d e : digits d -> digits e -> underscored s d = underscored t e -> s = t /\ d = e.
Proof.
  intros [_ Hd] [_ He] H. unfold underscored in H. change (bcons "_" (d +++ "_")) with (bcons "_" d +++ "_") in H.
  change (bcons "_" (e +++ "_")) with (bcons "_" e +++ "_") in H. rewrite <- !bapp_assoc in H. apply last_cancel in H. exact (us_split s t d e Hd He H).
Qed.
(** Different libxc names stay different, unless one is s[d] and the other one s_d_. *)
Theorem param_name_inj m n : libxc_name m -> libxc_name n -> param_name m = param_name n ->
  m = n \/ exists s d, digits d /\ ((m = indexed s d /\ n = underscored s d) \/ (n = indexed s d /\ m = underscored s d)).
Proof.
  intros Hm Hn H. apply sub_lambda_inj in H. destruct Hm as [s Hs|s d Hs Hd], Hn as [t Ht|t e Ht He].
  - left. rewrite !sub_index_plain in H by (apply identifier_word; assumption). exact H.
  - right. exists t, e. split; [exact He|]. right. split; [reflexivity|].
    rewrite sub_index_plain, sub_index_indexed in H by (try apply identifier_word; assumption). exact H.
  - right. exists s, d. split; [exact Hd|]. left. split; [reflexivity|].
    rewrite sub_index_indexed, sub_index_plain in H by (try apply identifier_word; assumption). symmetry. exact H.
  - left. rewrite !sub_index_indexed in H by (try apply identifier_word; assumption). destruct (underscored_inj s t d e Hd He H) as [-> ->]. reflexivity.
Qed.
(** and in that case they do become equal. *)
Theorem param_name_clash s d : identifier s = true -> digits d -> param_name (indexed s d) = param_name (underscored s d) /\ indexed s d <> underscored s d.
Proof.
  intros H Hd. unfold param_name. rewrite sub_index_indexed by (try apply identifier_word; assumption).
  rewrite sub_index_plain by (apply identifier_word, underscored_identifier; assumption). split; [reflexivity|].
  intros E. unfold indexed, underscored in E. apply bapp_inj_l in E. discriminate.
Qed.
