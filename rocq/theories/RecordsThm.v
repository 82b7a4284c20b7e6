(** Facts about Records.v. *)
From Coq Require Import Reals List Bool ZArith Arith Strings.Byte Lia.
From Verif Require Import Bytes Syntax Parser Src Semantics Impl Records.
Import ListNotations.
Open Scope R_scope.

(** Induction on Python values and on libxc structures. *)
Section PvalInd.
Variable P : pval -> Prop.
Hypothesis HS : forall s, P (VStr s).
Hypothesis HI : forall z, P (VInt z).
Hypothesis HF : forall x, P (VFloat x).
Hypothesis HA : forall a, P (VArr a).
Hypothesis HD : forall d, Forall (fun kv => P (snd kv)) d -> P (VDict d).
Hypothesis HL : forall l, Forall P l -> P (VList l).
Hypothesis HR : forall n d, Forall (fun kv => P (snd kv)) d -> P (VRec n d).
Fixpoint pval_ind' (v : pval) : P v :=
  let go := fix go (d : list (bstr * pval)) : Forall (fun kv => P (snd kv)) d :=
    match d with [] => Forall_nil _ | kv :: d => Forall_cons _ (pval_ind' (snd kv)) (go d) end in
  match v with
  | VStr s => HS s | VInt z => HI z | VFloat x => HF x | VArr a => HA a
  | VDict d => HD d (go d)
  | VList l => HL l ((fix gl (l : list pval) : Forall P l :=
      match l with [] => Forall_nil _ | v :: l => Forall_cons _ (pval_ind' v) (gl l) end) l)
  | VRec n d => HR n d (go d)
  end.
End PvalInd.
Section XcInd.
Variable P : xc_func -> Prop.
Hypothesis H : forall name lda gga mgga init scal nspin str aux mix,
  (forall l, aux = Some l -> Forall P l) -> P (XC name lda gga mgga init scal nspin str aux mix).
Fixpoint xc_ind' (f : xc_func) : P f :=
  match f with
  | XC name lda gga mgga init scal nspin str aux mix =>
      H name lda gga mgga init scal nspin str aux mix
        (match aux with
         | None => fun ps E => match E in _ = o return match o with None => True | Some ps => Forall P ps end with eq_refl => Logic.I end
         | Some l => fun ps E =>
             match E in _ = o return match o with None => True | Some ps => Forall P ps end with
             | eq_refl => (fix go (l : list xc_func) : Forall P l :=
                 match l with [] => Forall_nil _ | q :: l => Forall_cons _ (xc_ind' q) (go l) end) l
             end
         end)
  end.
End XcInd.

(** ** Dictionaries *)
Definition keys {A} (d : list (bstr * A)) : list bstr := map fst d.
Definition ren (k : bstr) : bstr := if beqb k "lambda" then "lambda_"%b else k.

Lemma assoc_In {A} k (d : list (bstr * A)) v : assoc k d = Some v -> In (k, v) d.
Proof.
  induction d as [|[k' v'] d IH]; simpl; [discriminate|]. destruct (beqb k k') eqn:E.
  - intros H. injection H as ->. apply beqb_eq in E. subst. left. reflexivity.
  - intros H. right. auto.
Qed.
Lemma assoc_None {A} k (d : list (bstr * A)) : assoc k d = None <-> ~ In k (keys d).
Proof.
  induction d as [|[k' v'] d IH]; simpl; [tauto|]. destruct (beqb k k') eqn:E.
  - apply beqb_eq in E. subst. split; [discriminate|intros H; exfalso; apply H; auto].
  - apply beqb_neq in E. rewrite IH. split; intros H; [intros [H'|H']; congruence|tauto].
Qed.
Lemma In_assoc {A} k (d : list (bstr * A)) v : NoDup (keys d) -> In (k, v) d -> assoc k d = Some v.
Proof.
  induction d as [|[k' v'] d IH]; simpl; [contradiction|]. intros Hn Hin. inversion Hn as [|? ? Hk Hn']; subst.
  destruct Hin as [E|Hin].
  - injection E as -> ->. rewrite beqb_refl. reflexivity.
  - destruct (beqb k k') eqn:E; [|apply IH; assumption]. apply beqb_eq in E. subst.
    exfalso. apply Hk. apply (in_map fst) in Hin. exact Hin.
Qed.
Lemma dset_fresh {A} (d : list (bstr * A)) k v : ~ In k (keys d) -> dset d k v = d ++ [(k, v)].
Proof.
  induction d as [|[k' v'] d IH]; simpl; intros H; [reflexivity|].
  rewrite (proj2 (beqb_neq k' k)) by tauto. rewrite IH by tauto. reflexivity.
Qed.
Lemma dpop_In {A} (d : list (bstr * A)) x k v : NoDup (keys d) -> (In (k, v) (dpop d x) <-> In (k, v) d /\ k <> x).
Proof.
  induction d as [|[k' v'] d IH]; simpl; intros Hn; [tauto|]. inversion Hn as [|? ? Hk Hn']; subst.
  destruct (beqb k' x) eqn:E.
  - apply beqb_eq in E. subst. split.
    + intros H. split; [auto|]. intros ->. apply Hk. apply (in_map fst) in H. exact H.
    + intros [[H|H] Hx]; [congruence|exact H].
  - apply beqb_neq in E. simpl. rewrite IH by exact Hn'. split; [intros [H|[H1 H2]]|intros [[H|H] Hx]]; try tauto.
    injection H as -> ->. auto.
Qed.
Lemma dpop_keys {A} (d : list (bstr * A)) x : NoDup (keys d) -> NoDup (keys (dpop d x)) /\ forall k, In k (keys (dpop d x)) -> In k (keys d).
Proof.
  induction d as [|[k' v'] d IH]; simpl; intros Hn; [split; [constructor|tauto]|]. inversion Hn as [|? ? Hk Hn']; subst.
  destruct (beqb k' x); [split; [exact Hn'|auto]|]. destruct (IH Hn') as [I1 I2]. simpl. split.
  - constructor; [intros H; apply Hk, I2, H|exact I1].
  - intros k [H|H]; auto.
Qed.
Lemma dpop_length {A} (d : list (bstr * A)) x : In x (keys d) -> S (length (dpop d x)) = length d.
Proof.
  induction d as [|[k' v'] d IH]; simpl; [contradiction|]. intros H. destruct (beqb k' x) eqn:E; [reflexivity|].
  apply beqb_neq in E. simpl. rewrite IH by tauto. reflexivity.
Qed.

Definition keys_ok {A} (d : list (bstr * A)) : Prop :=
  NoDup (keys d) /\ ~ (In "lambda"%b (keys d) /\ In "lambda_"%b (keys d)).

Lemma rename_spec {A} (d : list (bstr * A)) : keys_ok d ->
  NoDup (keys (rename d)) /\ length (rename d) = length d /\
  forall k' v, In (k', v) (rename d) <-> exists k, In (k, v) d /\ k' = ren k.
Proof.
  intros [Hn Hl]. unfold rename, dget. destruct (assoc "lambda" d) as [w|] eqn:E.
  - pose proof (assoc_In _ _ _ E) as Hin. assert (Hk : In "lambda"%b (keys d)) by (apply (in_map fst) in Hin; exact Hin).
    destruct (dpop_keys d "lambda" Hn) as [N1 N2].
    assert (Hf : ~ In "lambda_"%b (keys (dpop d "lambda"))) by (intros H; apply Hl; auto).
    rewrite dset_fresh by exact Hf. unfold keys in *. rewrite map_app, app_length. simpl. split; [|split].
    + clear - N1 Hf. induction (dpop d "lambda") as [|[a b] l IH]; simpl in *; [repeat constructor; auto|].
      inversion N1; subst. constructor; [rewrite in_app_iff; simpl; intuition congruence|apply IH; tauto].
    + rewrite Nat.add_comm. simpl. apply dpop_length, Hk.
    + intros k' v. rewrite in_app_iff, dpop_In by exact Hn. simpl. split.
      * intros [[H1 H2]|[H|[]]].
        -- exists k'. split; [exact H1|]. unfold ren. rewrite (proj2 (beqb_neq _ _) H2). reflexivity.
        -- injection H as <- <-. exists "lambda"%b. split; [exact Hin|reflexivity].
      * intros (k & H1 & ->). unfold ren. destruct (beqb k "lambda") eqn:Ek.
        -- apply beqb_eq in Ek. subst k. right. left. f_equal. apply (In_assoc _ _ _ Hn) in H1. congruence.
        -- left. split; [exact H1|apply beqb_neq, Ek].
  - apply assoc_None in E. split; [exact Hn|split; [reflexivity|]]. intros k' v. split.
    + intros H. exists k'. split; [exact H|]. unfold ren. rewrite (proj2 (beqb_neq k' "lambda")); [reflexivity|].
      intros ->. apply E. apply (in_map fst) in H. exact H.
    + intros (k & H & ->). unfold ren. rewrite (proj2 (beqb_neq k "lambda")); [exact H|].
      intros ->. apply E. apply (in_map fst) in H. exact H.
Qed.

(** ** C22: dictionary to record *)

(** Keys and values [dict_to_namedtuple] is meant for. *)
Fixpoint usable (v : pval) (k : bstr) {struct v} : Prop :=
  let dict (v : pval) : Prop := match v with VDict _ => usable v k | _ => False end in
  match v with
  | VDict d => usable_name k = true /\ keys_ok d /\
      (fix go (d : list (bstr * pval)) : Prop :=
         match d with [] => True | kv :: d => usable_field (ren (fst kv)) = true /\ usable (snd kv) (ren (fst kv)) /\ go d end) d
  | VList l => (fix go (l : list pval) : Prop := match l with [] => True | v :: l => dict v /\ go l end) l
  | VRec _ _ => False
  | _ => True
  end.
Definition atom (v : pval) : Prop :=
  match v with VDict _ | VList _ | VRec _ _ => False | _ => True end.
(** [mirrors v r]: r is v with its dictionaries turned into records: every entry of a
    dictionary is an attribute under its (renamed) key, and there are no other attributes. *)
Inductive mirrors : pval -> pval -> Prop :=
| m_atom v : atom v -> mirrors v v
| m_list l l' : Forall2 mirrors l l' -> mirrors (VList l) (VList l')
| m_dict d n fs :
    NoDup (keys fs) -> length fs = length d ->
    (forall k v, In (k, v) d -> exists v', getattr (VRec n fs) (ren k) = Some v' /\ mirrors v v') ->
    (forall k', In k' (keys fs) -> exists k, In k (keys d) /\ k' = ren k) ->
    mirrors (VDict d) (VRec n fs).

Lemma usable_dict d k : usable (VDict d) k ->
  usable_name k = true /\ keys_ok d /\
  forall k' v, In (k', v) d -> usable_field (ren k') = true /\ usable v (ren k').
Proof.
  cbn [usable]. intros (H1 & H2 & H3). split; [exact H1|split; [exact H2|]]. clear H1 H2. intros k' v Hin.
  induction d as [|kv d IH]; [contradiction|]. destruct H3 as (A & B & C). destruct Hin as [->|Hin]; [auto|].
  exact (IH C Hin).
Qed.
Lemma usable_list l k : usable (VList l) k -> Forall (fun v => (exists d, v = VDict d) /\ usable v k) l.
Proof.
  cbn [usable]. induction l as [|v l IH]; intros H; constructor; [|apply IH, H].
  destruct H as [H _]. destruct v; try contradiction. split; [eauto|exact H].
Qed.
Lemma seq_ok {A} (d : list (bstr * (bstr -> res A))) (R : bstr -> (bstr -> res A) -> A -> Prop) :
  (forall k f, In (k, f) d -> exists v, f k = Ok v /\ R k f v) ->
  exists fs, seq d = Ok fs /\ Forall2 (fun kf kv => fst kf = fst kv /\ R (fst kf) (snd kf) (snd kv)) d fs.
Proof.
  induction d as [|[k f] d IH]; intros H; [exists []; split; [reflexivity|constructor]|].
  destruct (H k f (or_introl eq_refl)) as (v & E & HR). destruct IH as (fs & Ef & Hf).
  { intros k' f' Hin. apply H. right. exact Hin. }
  exists ((k, v) :: fs). cbn [seq]. rewrite E. cbn [rbind]. rewrite Ef. split; [reflexivity|]. constructor; auto.
Qed.
Lemma distinct_NoDup l : distinct l = true <-> NoDup l.
Proof.
  induction l as [|x l IH]; simpl; [split; [constructor|reflexivity]|]. rewrite andb_true_iff, negb_true_iff, IH.
  assert (E : existsb (beqb x) l = false <-> ~ In x l).
  { split.
    - intros H Hin. assert (T : existsb (beqb x) l = true) by (apply existsb_exists; exists x; split; [exact Hin|apply beqb_refl]). congruence.
    - intros H. destruct (existsb (beqb x) l) eqn:E; [|reflexivity]. apply existsb_exists in E. destruct E as (y & Hy & Ey).
      apply beqb_eq in Ey. subst y. contradiction. }
  rewrite E. split; [intros [A B]; constructor; assumption|intros H; inversion H; auto].
Qed.

Lemma convert_mirrors : forall v k, usable v k -> exists r, convert v k = Ok r /\ mirrors v r.
Proof.
  induction v as [s|z|x|a|d IH|l IH|n d IH] using pval_ind'; intros k Hu;
    try (eexists; split; [reflexivity|apply m_atom; exact Logic.I]).
  - apply usable_dict in Hu. destruct Hu as (Hk & Hok & He).
    set (d' := map (fun kv => (fst kv, convert (snd kv))) d).
    assert (Kd : keys d' = keys d) by (unfold d', keys; rewrite map_map; reflexivity).
    assert (Hok' : keys_ok d') by (unfold keys_ok; rewrite Kd; exact Hok).
    destruct (rename_spec d' Hok') as (Rn & Rl & Rin).
    destruct (seq_ok (rename d') (fun k' f v' => exists k0 v0, In (k0, v0) d /\ k' = ren k0 /\ f = convert v0 /\ mirrors v0 v')) as (fs & Ef & Hf).
    { intros k' f Hin. apply Rin in Hin. destruct Hin as (k0 & Hin & ->). apply in_map_iff in Hin.
      destruct Hin as ([k1 v1] & E & Hin). cbn in E. apply pair_equal_spec in E. destruct E as [<- <-].
      destruct (He k1 v1 Hin) as [_ Hv]. rewrite Forall_forall in IH. destruct (IH (k1, v1) Hin (ren k1) Hv) as (r & Er & Hr).
      exists r. split; [exact Er|]. exists k1, v1. auto. }
    assert (Kf : keys fs = keys (rename d')).
    { clear - Hf. induction Hf as [|? ? ? ? [E _] _ IH]; [reflexivity|]. simpl. rewrite IH, E. reflexivity. }
    exists (VRec k fs). cbn [convert]. fold d'. rewrite Ef. cbn [rbind]. split.
    + unfold namedtuple. fold (keys fs). rewrite Kf, Hk, (proj2 (distinct_NoDup _) Rn).
      replace (forallb usable_field (keys (rename d'))) with true; [reflexivity|]. symmetry. apply forallb_forall.
      intros k' Hin. unfold keys in Hin. apply in_map_iff in Hin. destruct Hin as ([k1 f] & <- & Hin). apply Rin in Hin.
      destruct Hin as (k0 & Hin & E). cbn. rewrite E. apply in_map_iff in Hin. destruct Hin as ([k2 v2] & E2 & Hin).
      cbn in E2. apply pair_equal_spec in E2. destruct E2 as [<- _]. apply (He k2 v2 Hin).
    + apply m_dict.
      * rewrite Kf. exact Rn.
      * transitivity (length (rename d')); [clear - Hf; induction Hf; simpl; congruence|]. rewrite Rl. unfold d'. apply map_length.
      * intros k0 v0 Hin.
        assert (Hin' : In (ren k0, convert v0) (rename d')).
        { apply Rin. exists k0. split; [|reflexivity]. unfold d'. apply in_map_iff. exists (k0, v0). auto. }
        assert (G : exists v', In (ren k0, v') fs /\ mirrors v0 v').
        { assert (Hkey : forall k1 v1, In (k1, v1) d -> ren k1 = ren k0 -> v1 = v0).
          { intros k1 v1 H1 E. assert (E1 : assoc (ren k0) (rename (map (fun kv => (fst kv, snd kv)) d)) = Some v1).
            { destruct (rename_spec (map (fun kv => (fst kv, snd kv)) d)) as (A & _ & B).
              { unfold keys_ok, keys. rewrite map_map. exact Hok. }
              apply In_assoc; [exact A|]. apply B. exists k1. split; [|auto]. apply in_map_iff. exists (k1, v1). auto. }
            assert (E2 : assoc (ren k0) (rename (map (fun kv => (fst kv, snd kv)) d)) = Some v0).
            { destruct (rename_spec (map (fun kv => (fst kv, snd kv)) d)) as (A & _ & B).
              { unfold keys_ok, keys. rewrite map_map. exact Hok. }
              apply In_assoc; [exact A|]. apply B. exists k0. split; [|auto]. apply in_map_iff. exists (k0, v0). auto. }
            congruence. }
          clear - Hf Hin' Hkey. induction Hf as [|[k1 f1] [k2 v2] l l' [E (k3 & v3 & A & B & C & D)] _ IH]; [contradiction|].
          cbn in *. destruct Hin' as [H|H].
          - apply pair_equal_spec in H. destruct H as [H1 H2]. subst k1. subst k2. exists v2. split; [left; congruence|].
            rewrite <- (Hkey k3 v3 A); [exact D|congruence].
          - destruct (IH H) as (v' & I1 & I2). exists v'. auto. }
        destruct G as (v' & G1 & G2). exists v'. split; [|exact G2]. cbn [getattr]. unfold dget. apply In_assoc; [rewrite Kf; exact Rn|exact G1].
      * intros k' Hin. rewrite Kf in Hin. unfold keys in Hin. apply in_map_iff in Hin. destruct Hin as ([k1 f] & <- & Hin).
        apply Rin in Hin. destruct Hin as (k0 & Hin & E). exists k0. split; [|exact E].
        rewrite <- Kd. apply (in_map fst) in Hin. exact Hin.
  - apply usable_list in Hu.
    assert (G : exists l', rmap (fun v => match v with VDict _ => convert v k | _ => Err TypeError end) l = Ok l' /\ Forall2 mirrors l l').
    { induction l as [|v l IHl]; [exists []; split; [reflexivity|constructor]|].
      inversion IH as [|? ? I1 I2]; subst. inversion Hu as [|? ? [[d ->] U1] U2]; subst.
      destruct (I1 k U1) as (r & Er & Hr). destruct (IHl I2 U2) as (l' & El & Hl).
      exists (r :: l'). unfold rmap. rewrite Er. cbn [rbind]. fold (@rmap pval pval). unfold rmap in El. rewrite El. split; [reflexivity|]. constructor; assumption. }
    destruct G as (l' & E & Hl). exists (VList l'). cbn [convert]. rewrite E. split; [reflexivity|]. apply m_list, Hl.
  - contradiction.
Qed.
Theorem dict_to_namedtuple_lossless d name : usable (VDict d) name ->
  exists r, dict_to_namedtuple (VDict d) name = Ok r /\ mirrors (VDict d) r.
Proof. exact (convert_mirrors (VDict d) name). Qed.

(** ** C23: families *)
Definition has_family (name t : bstr) : Prop := exists rest, name = t +++ rest \/ name = "hyb_"%b +++ t +++ rest.

Lemma bprefix_iff p s : bprefix p s = true <-> exists r, s = p +++ r.
Proof.
  unfold bprefix. destruct (bstrip p s) as [r|] eqn:E.
  - apply bstrip_app in E. split; eauto.
  - split; [discriminate|]. intros [r Hr]. apply (proj2 (bstrip_app p s r)) in Hr. congruence.
Qed.
Lemma family_test name t : (bprefix t name || bprefix ("hyb_"%b +++ t) name)%bool = true <-> has_family name t.
Proof.
  rewrite orb_true_iff, !bprefix_iff. unfold has_family. split.
  - intros [[r ->]|[r ->]]; exists r; [left|right]; rewrite ?bapp_assoc; reflexivity.
  - intros [r [-> | ->]]; [left|right]; exists r; rewrite ?bapp_assoc; reflexivity.
Qed.
Lemma family_unique name t t' : In t ["lda"; "gga"; "mgga"]%b -> In t' ["lda"; "gga"; "mgga"]%b ->
  has_family name t -> has_family name t' -> t = t'.
Proof.
  intros Ht Ht' [r [E|E]] [r' [E'|E']]; rewrite E in E'; clear E; simpl in Ht, Ht';
    repeat (match goal with H : _ \/ _ |- _ => destruct H as [H|H] end); try contradiction; subst; try reflexivity;
    cbn in E'; discriminate.
Qed.
Lemma name_to_type_spec name :
  (forall t, name_to_type name = Ok t <-> In t ["lda"; "gga"; "mgga"]%b /\ has_family name t) /\
  (forall e, name_to_type name = Err e -> forall t, In t ["lda"; "gga"; "mgga"]%b -> ~ has_family name t).
Proof.
  pose proof (family_test name "lda") as L. pose proof (family_test name "gga") as G. pose proof (family_test name "mgga") as M.
  change ("hyb_"%b +++ "lda"%b) with "hyb_lda"%b in L. change ("hyb_"%b +++ "gga"%b) with "hyb_gga"%b in G.
  change ("hyb_"%b +++ "mgga"%b) with "hyb_mgga"%b in M.
  unfold name_to_type.
  destruct (bprefix "lda" name || bprefix "hyb_lda" name)%bool eqn:El.
  - assert (HL : has_family name "lda") by (apply L; reflexivity). split; [|discriminate].
    intros t. split; [intros E; injection E as <-; split; [simpl; auto|exact HL]|].
    intros [Ht Hf]. f_equal. apply (family_unique name); simpl; auto.
  - assert (NL : ~ has_family name "lda") by (rewrite <- L; discriminate).
    destruct (bprefix "gga" name || bprefix "hyb_gga" name)%bool eqn:Eg.
    + assert (HG : has_family name "gga") by (apply G; reflexivity). split; [|discriminate].
      intros t. split; [intros E; injection E as <-; split; [simpl; auto|exact HG]|].
      intros [Ht Hf]. f_equal. apply (family_unique name); simpl; auto.
    + assert (NG : ~ has_family name "gga") by (rewrite <- G; discriminate).
      destruct (bprefix "mgga" name || bprefix "hyb_mgga" name)%bool eqn:Em.
      * assert (HM : has_family name "mgga") by (apply M; reflexivity). split; [|discriminate].
        intros t. split; [intros E; injection E as <-; split; [simpl; auto|exact HM]|].
        intros [Ht Hf]. f_equal. apply (family_unique name); simpl; auto.
      * assert (NM : ~ has_family name "mgga") by (rewrite <- M; discriminate). split.
        -- intros t. split; [discriminate|]. intros [Ht Hf]. simpl in Ht. exfalso.
           destruct Ht as [<-|[<-|[<-|[]]]]; contradiction.
        -- intros e _ t Ht. simpl in Ht. destruct Ht as [<-|[<-|[<-|[]]]]; assumption.
Qed.
(** The three generators agree on a base name without a dot, and on the file names derived
    from it by adding an extension. *)
Lemma until_dot_app s r : (forall b, In b (to_bytes s) -> b <> "."%byte) ->
  until_dot (s +++ bcons "."%byte r) = s /\ until_dot s = s.
Proof.
  induction s as [|b s IH]; simpl; intros H; [auto|].
  assert (E : Byte.eqb b "." = false).
  { destruct (Byte.eqb b ".") eqn:E; [|reflexivity]. apply byte_eqb_eq in E. exfalso. apply (H b); auto. }
  rewrite E. destruct IH as [A B]; [intros; apply H; auto|]. rewrite A, B. auto.
Qed.
Definition same_outcome (a b : res bstr) : Prop :=
  match a, b with Ok x, Ok y => x = y | Err _, Err _ => True | _, _ => False end.
Lemma bprefix_app_dot p s r : (forall b, In b (to_bytes p) -> b <> "."%byte) -> bprefix p (s +++ bcons "."%byte r) = bprefix p s.
Proof.
  revert s. induction p as [|a p IH]; intros s H; [reflexivity|].
  unfold bprefix in *. destruct s as [|b s]; simpl.
  - destruct (Byte.eqb a ".") eqn:E; [|reflexivity]. apply byte_eqb_eq in E. exfalso. apply (H a); [left; reflexivity|exact E].
  - destruct (Byte.eqb a b); [|reflexivity]. apply IH. intros; apply H; right; assumption.
Qed.
Theorem families_agree name ext ext' : (forall b, In b (to_bytes name) -> b <> "."%byte) ->
  same_outcome (name_to_type name) (gen_py_type (name +++ bcons "."%byte ext)) /\
  same_outcome (name_to_type name) (gen_maple_type (name +++ bcons "."%byte ext')).
Proof.
  intros Hd. unfold name_to_type, gen_py_type, gen_maple_type.
  rewrite (proj1 (until_dot_app name ext Hd)).
  rewrite !bprefix_app_dot by (intros b Hb; simpl in Hb; repeat (destruct Hb as [<-|Hb]; [discriminate|]); contradiction).
  split.
  - destruct (_ || _)%bool; [reflexivity|]. destruct (_ || _)%bool; [reflexivity|]. destruct (_ || _)%bool; reflexivity.
  - destruct (_ || _)%bool; [reflexivity|]. destruct (_ || _)%bool; [reflexivity|]. destruct (_ || _)%bool; reflexivity.
Qed.

(** ** C24: formula resolution *)
Definition special (name : bstr) : Prop := name = "mgga_x_2d_prhg07_prp10"%b \/ name = "hyb_mgga_xc_b98"%b.

Lemma last_of_app {A} (l l' : list (ptr * A)) k v : last_of (l ++ (k, v) :: l') k =
  match last_of l' k with Some w => Some w | None => Some v end.
Proof.
  induction l as [|[a b] l IH]; cbn [app last_of].
  - rewrite Nat.eqb_refl. reflexivity.
  - rewrite IH. destruct (last_of l' k); reflexivity.
Qed.
Lemma last_of_spec {A} (l : list (ptr * A)) k :
  (forall v, last_of l k = Some v <-> exists l1 l2, l = l1 ++ (k, v) :: l2 /\ ~ In k (map fst l2)) /\
  (last_of l k = None <-> ~ In k (map fst l)).
Proof.
  induction l as [|[a b] l [IH1 IH2]]; cbn [last_of].
  - split; [|simpl; split; tauto]. intros v. split; [discriminate|]. intros (l1 & l2 & E & _). destruct l1; discriminate.
  - destruct (last_of l k) as [w|] eqn:E.
    + assert (Hin : In k (map fst l)).
      { destruct (in_dec Nat.eq_dec k (map fst l)) as [H|H]; [exact H|]. apply IH2 in H. discriminate. }
      split; [|split; [discriminate|intros H; exfalso; apply H; right; exact Hin]].
      intros v. split.
      * intros H. injection H as ->. destruct (proj1 (IH1 v) eq_refl) as (l1 & l2 & -> & Hn). exists ((a, b) :: l1), l2. auto.
      * intros (l1 & l2 & El & Hn). destruct l1 as [|x l1]; cbn in El.
        -- injection El as _ _ ->. contradiction.
        -- injection El as _ ->. apply IH1. exists l1, l2. auto.
    + assert (Hn : ~ In k (map fst l)) by (apply IH2; reflexivity).
      destruct (Nat.eqb a k) eqn:Ea.
      * apply Nat.eqb_eq in Ea. subst a. split; [|split; [discriminate|intros H; exfalso; apply H; left; reflexivity]].
        intros v. split.
        -- intros H. injection H as ->. exists [], l. auto.
        -- intros (l1 & l2 & El & Hn2). destruct l1 as [|x l1]; cbn in El; [injection El as -> ->; reflexivity|].
           injection El as <- ->. exfalso. apply Hn. rewrite map_app. apply in_or_app. right. left. reflexivity.
      * apply Nat.eqb_neq in Ea. split.
        -- intros v. split; [discriminate|]. intros (l1 & l2 & El & Hn2). destruct l1 as [|x l1]; cbn in El.
           ++ injection El as -> -> ->. contradiction.
           ++ injection El as <- ->. exfalso. apply Hn. rewrite map_app. apply in_or_app. right. left. reflexivity.
        -- cbn [map fst]. split; [|reflexivity]. intros _ [H|H]; [cbn in H; congruence|contradiction].
Qed.

(** A functional with components is a mixture; one without is resolved to the module last
    registered for its work function; every other functional is rejected. *)
Theorem resolution rg f : ~ special (x_name f) ->
  (x_aux f <> None -> get_maple_name rg f = Ok ""%b) /\
  (x_aux f = None -> forall m, get_maple_name rg f = Ok m <->
     exists k l1 l2, work_key f = Some k /\ work_to_maple_name rg = l1 ++ (k, m) :: l2 /\ ~ In k (map fst l2)) /\
  (x_aux f = None -> (work_key f = None \/ exists k, work_key f = Some k /\ ~ In k (map fst (work_to_maple_name rg))) ->
     get_maple_name rg f = Err RuntimeError).
Proof.
  intros Hs. unfold get_maple_name.
  rewrite (proj2 (beqb_neq (x_name f) "mgga_x_2d_prhg07_prp10")) by (intros E; apply Hs; left; exact E).
  rewrite (proj2 (beqb_neq (x_name f) "hyb_mgga_xc_b98")) by (intros E; apply Hs; right; exact E).
  split; [|split].
  - destruct (x_aux f); [reflexivity|congruence].
  - intros -> m. destruct (work_key f) as [k|].
    + destruct (last_of_spec (work_to_maple_name rg) k) as [A B]. destruct (last_of (work_to_maple_name rg) k) as [n|] eqn:E.
      * split.
        -- intros H. injection H as ->. destruct (proj1 (A m) eq_refl) as (l1 & l2 & E1 & E2). eauto 6.
        -- intros (k' & l1 & l2 & E0 & E1 & E2). injection E0 as <-. f_equal.
           assert (X : Some n = Some m) by (apply A; eauto). congruence.
      * split; [discriminate|]. intros (k' & l1 & l2 & E0 & E1 & E2). injection E0 as <-.
        assert (X : None = Some m) by (apply A; eauto). discriminate.
    + split; [discriminate|]. intros (k' & l1 & l2 & E0 & _). discriminate.
  - intros -> [-> | (k & -> & Hn)]; [reflexivity|]. rewrite (proj2 (proj2 (last_of_spec (work_to_maple_name rg) k)) Hn). reflexivity.
Qed.
Theorem resolution_special rg f :
  (x_name f = "mgga_x_2d_prhg07_prp10"%b -> get_maple_name rg f = Ok "mgga_x_2d_prp10"%b) /\
  (x_name f = "hyb_mgga_xc_b98"%b -> get_maple_name rg f = Ok "mgga_xc_b98"%b).
Proof. unfold get_maple_name. split; intros ->; reflexivity. Qed.
