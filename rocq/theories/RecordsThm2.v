(** The records obtained from libxc (C21), and what deorbitalized functionals become (C12). *)
From Coq Require Import Reals List Bool ZArith Arith Strings.Byte Lia Lra.
From Verif Require Import Bytes Syntax Parser Src Semantics Impl ImplThm Records RecordsThm.
Import ListNotations.
Open Scope R_scope.

Section Rec.
Variable rg : registries.
Variable heap : nat -> list R.

(** Names of the members of a parameter struct: C identifiers not reserved by Python, other
    than [lambda], and not [lambda] and [lambda_] together; recursively for components. *)
Definition members_ok (str : list (bstr * arr)) : Prop :=
  (forall k, In k (keys str) -> usable_field (ren k) = true) /\
  ~ (In "lambda"%b (keys str) /\ In "lambda_"%b (keys str)).
Fixpoint names_ok (f : xc_func) : Prop :=
  match f with
  | XC _ _ _ _ _ _ _ str aux _ =>
      members_ok str /\
      match aux with
      | None => True
      | Some l => (fix go (l : list xc_func) : Prop := match l with [] => True | g :: l => names_ok g /\ go l end) l
      end
  end.

Definition components (f : xc_func) : list xc_func := match x_aux f with Some l => l | None => [] end.

(** [record_of f r]: the record r shows the fields of the libxc structure f. *)
Inductive record_of : xc_func -> pval -> Prop :=
| record_intro f r prm maple ty l' :
    getattr r "name" = Some (VStr (x_name f)) ->
    getattr r "cam_omega" = Some (VFloat (cam_omega (x_scal f))) ->
    getattr r "cam_alpha" = Some (VFloat (cam_alpha (x_scal f))) ->
    getattr r "cam_beta" = Some (VFloat (cam_beta (x_scal f))) ->
    getattr r "nlc_b" = Some (VFloat (nlc_b (x_scal f))) ->
    getattr r "nlc_C" = Some (VFloat (nlc_C (x_scal f))) ->
    getattr r "dens_threshold" = Some (VFloat (dens_threshold (x_scal f))) ->
    getattr r "zeta_threshold" = Some (VFloat (zeta_threshold (x_scal f))) ->
    getattr r "sigma_threshold" = Some (VFloat (sigma_threshold (x_scal f))) ->
    getattr r "tau_threshold" = Some (VFloat (tau_threshold (x_scal f))) ->
    getattr r "nspin" = Some (VInt (x_nspin f)) ->
    getattr r "maple_name" = Some (VStr maple) -> get_maple_name rg f = Ok maple ->
    getattr r "type" = Some (VStr ty) -> name_to_type (x_name f) = Ok ty ->
    getattr r "params" = Some prm ->
    (forall k a, getattr prm (ren k) = Some (VArr a) <->
       exists fields k', last_of (registry rg) (x_init f) = Some fields /\ In k' fields /\
         assoc k' (x_struct f) = Some a /\ ren k' = ren k) ->
    Forall2 record_of (components f) l' ->
    (components f = [] -> getattr r "func_aux" = None /\ getattr r "mix_coef" = None) ->
    (components f <> [] -> getattr r "func_aux" = Some (VList l') /\
       getattr r "mix_coef" = Some (VArr (Arr [length (components f)]
         match x_mix f with Some m => m | None => heap (length (components f)) end))) ->
    record_of f r.

(** ** std::map *)
Lemma existsb_key (l : list bstr) k : existsb (beqb k) l = true <-> In k l.
Proof.
  rewrite existsb_exists. split; [intros (y & Hy & E); apply beqb_eq in E; subst; exact Hy|].
  intros H. exists k. split; [exact H|apply beqb_refl].
Qed.
Lemma beqb_sym s t : beqb s t = beqb t s.
Proof.
  destruct (beqb s t) eqn:E; symmetry; [apply beqb_eq in E; subst; apply beqb_refl|].
  apply beqb_neq. apply beqb_neq in E. congruence.
Qed.
Lemma dset_assoc {A} (m : list (bstr * A)) k v x : assoc x (dset m k v) = if beqb x k then Some v else assoc x m.
Proof.
  induction m as [|[k' v'] m IH]; simpl; [reflexivity|]. destruct (beqb k' k) eqn:E; simpl.
  - apply beqb_eq in E. subst k'. destruct (beqb x k); reflexivity.
  - rewrite IH. destruct (beqb x k') eqn:E1; [|reflexivity]. apply beqb_eq in E1. subst x. rewrite E. reflexivity.
Qed.
Lemma dset_keys {A} (m : list (bstr * A)) k v : In k (keys m) -> keys (dset m k v) = keys m.
Proof.
  induction m as [|[k' v'] m IH]; simpl; [contradiction|]. destruct (beqb k' k) eqn:E; simpl.
  - apply beqb_eq in E. subst. reflexivity.
  - apply beqb_neq in E. intros [H|H]; [congruence|]. rewrite IH by exact H. reflexivity.
Qed.
Lemma insert_In {A} (m : list (bstr * A)) k v x : In x (keys (insert m k v)) <-> x = k \/ In x (keys m).
Proof. induction m as [|[k' v'] m IH]; simpl; [intuition|]. destruct (bltb k k'); simpl; [intuition|]. rewrite IH. intuition. Qed.
Lemma insert_NoDup {A} (m : list (bstr * A)) k v : ~ In k (keys m) -> NoDup (keys m) -> NoDup (keys (insert m k v)).
Proof.
  induction m as [|[k' v'] m IH]; simpl; intros Hk H; [constructor; [tauto|constructor]|].
  inversion H as [|? ? Hk' Hm]; subst. destruct (bltb k k'); simpl.
  - constructor; [simpl; intuition|exact H].
  - constructor; [rewrite insert_In; intuition|apply IH; intuition].
Qed.
Lemma insert_assoc {A} (m : list (bstr * A)) k v x : ~ In k (keys m) -> assoc x (insert m k v) = if beqb x k then Some v else assoc x m.
Proof.
  induction m as [|[k' v'] m IH]; simpl; intros Hk; [reflexivity|]. destruct (bltb k k'); simpl; [reflexivity|].
  rewrite IH by tauto. destruct (beqb x k') eqn:E1; [|reflexivity]. apply beqb_eq in E1. subst x.
  rewrite (proj2 (beqb_neq k' k)) by tauto. reflexivity.
Qed.
Lemma map_set_spec {A} (m : list (bstr * A)) k v : NoDup (keys m) ->
  NoDup (keys (map_set m k v)) /\ (forall x, In x (keys (map_set m k v)) <-> x = k \/ In x (keys m)) /\
  (forall x, assoc x (map_set m k v) = if beqb x k then Some v else assoc x m).
Proof.
  intros H. unfold map_set. destruct (existsb (beqb k) (map fst m)) eqn:E.
  - apply existsb_key in E. rewrite (dset_keys m k v E). split; [exact H|]. split; [intros x; split; [auto|intros [->|Hx]; assumption]|].
    intros x. apply dset_assoc.
  - assert (Hk : ~ In k (keys m)) by (intros Hin; apply existsb_key in Hin; unfold keys in Hin; congruence).
    split; [apply insert_NoDup; assumption|]. split; [intros x; apply insert_In|intros x; apply insert_assoc, Hk].
Qed.
Lemma get_params_spec f :
  NoDup (keys (get_params rg f)) /\
  (forall k, In k (keys (get_params rg f)) -> In k (keys (x_struct f))) /\
  (forall k a, assoc k (get_params rg f) = Some a <->
     exists fields, last_of (registry rg) (x_init f) = Some fields /\ In k fields /\ assoc k (x_struct f) = Some a).
Proof.
  unfold get_params. destruct (last_of (registry rg) (x_init f)) as [fields|].
  2:{ split; [constructor|]. split; [contradiction|]. intros k a. split; [discriminate|]. intros (fs & E & _). discriminate. }
  set (step := fun m k => match assoc k (x_struct f) with Some a => map_set m k a | None => m end).
  assert (G : forall m, NoDup (keys m) -> (forall k, In k (keys m) -> In k (keys (x_struct f))) ->
     NoDup (keys (fold_left step fields m)) /\ (forall k, In k (keys (fold_left step fields m)) -> In k (keys (x_struct f))) /\
     (forall k a, (forall b, assoc k m = Some b -> assoc k (x_struct f) = Some b) ->
        (assoc k (fold_left step fields m) = Some a <-> assoc k (x_struct f) = Some a /\ (In k fields \/ assoc k m = Some a)))).
  { induction fields as [|x fields IH]; intros m Hn Hs; cbn [fold_left].
    - split; [exact Hn|split; [exact Hs|]]. intros k a Hm. split; [intros H; auto|]. intros [_ [[]|H]]. exact H.
    - assert (Hs' : NoDup (keys (step m x)) /\ (forall k, In k (keys (step m x)) -> In k (keys (x_struct f))) /\
         (forall k, assoc k (step m x) = if beqb k x then match assoc x (x_struct f) with Some a => Some a | None => assoc k m end else assoc k m)).
      { unfold step. destruct (assoc x (x_struct f)) as [a|] eqn:Ex.
        - destruct (map_set_spec m x a Hn) as (A & B & C). split; [exact A|]. split; [|exact C].
          intros k Hk. apply B in Hk. destruct Hk as [->|Hk]; [|auto]. apply assoc_In in Ex. apply (in_map fst) in Ex. exact Ex.
        - split; [exact Hn|split; [exact Hs|]]. intros k. destruct (beqb k x); reflexivity. }
      destruct Hs' as (A & B & C). destruct (IH (step m x) A B) as (P1 & P2 & P3). split; [exact P1|]. split; [exact P2|].
      intros k a Hm. rewrite P3.
      + rewrite C. destruct (beqb k x) eqn:E.
        * apply beqb_eq in E. subst k. destruct (assoc x (x_struct f)) as [b|] eqn:Ex; [|split; intros [H _]; discriminate].
          split; intros [H _]; split; auto; left; left; reflexivity.
        * apply beqb_neq in E. split; intros [H1 H2]; (split; [exact H1|]); [destruct H2 as [H2|H2]; [left; right; exact H2|auto]|].
          destruct H2 as [[H2|H2]|H2]; [congruence|auto|auto].
      + intros b Hb. rewrite C in Hb. destruct (beqb k x) eqn:E; [|auto]. apply beqb_eq in E. subst k.
        destruct (assoc x (x_struct f)) eqn:Ex; [congruence|]. pose proof (Hm b Hb). congruence. }
  destruct (G [] (NoDup_nil _) (fun k H => False_ind _ H)) as (P1 & P2 & P3). split; [exact P1|]. split; [exact P2|].
  intros k a. rewrite P3 by discriminate. split.
  - intros [H1 [H2|H2]]; [|discriminate]. exists fields. auto.
  - intros (fs & E & H1 & H2). injection E as <-. auto.
Qed.

(** ** The dictionary built by the extension is usable *)
Definition params_dict (f : xc_func) : list (bstr * pval) := map (fun kv => (fst kv, VArr (snd kv))) (get_params rg f).
Lemma params_keys f : keys (params_dict f) = keys (get_params rg f).
Proof. unfold params_dict, keys. rewrite map_map. reflexivity. Qed.
Lemma params_usable f : members_ok (x_struct f) -> usable (VDict (params_dict f)) "params".
Proof.
  intros [M1 M2]. destruct (get_params_spec f) as (N & S & _). cbn [usable]. split; [reflexivity|]. split.
  - split; rewrite params_keys; [exact N|]. intros [H1 H2]. apply M2. split; apply S; assumption.
  - assert (G : forall kv, In kv (params_dict f) -> usable_field (ren (fst kv)) = true /\ usable (snd kv) (ren (fst kv))).
    { intros [k v] Hin. split.
      - apply M1, S. rewrite <- params_keys. apply (in_map fst) in Hin. exact Hin.
      - apply in_map_iff in Hin. destruct Hin as ([k' a] & E & _). cbn in E. injection E as <- <-. exact Logic.I. }
    induction (params_dict f) as [|kv l IH]; [exact Logic.I|]. split; [apply G; left; reflexivity|]. split; [apply G; left; reflexivity|].
    apply IH. intros kv' H. apply G. right. exact H.
Qed.

Definition base_fields (f : xc_func) (maple ty : bstr) : list (bstr * pval) :=
  [("name", VStr (x_name f))]%b ++ scalar_fields (x_scal f) ++
  [("params", VDict (params_dict f)); ("maple_name", VStr maple); ("type", VStr ty); ("nspin", VInt (x_nspin f))]%b.

Lemma xc_get_p_unfold f : xc_get_p rg heap f =
  (maple <- get_maple_name rg f;; ty <- name_to_type (x_name f);;
   match x_aux f with
   | None | Some [] => Ok (VDict (base_fields f maple ty))
   | Some l => l' <- rmap (xc_get_p rg heap) l;;
       Ok (VDict (base_fields f maple ty ++ [("func_aux", VList l'); ("mix_coef", VArr (mix_array heap (length l') (x_mix f)))]%b))
   end).
Proof. destruct f as [name lda gga mgga init scal nspin str [[|g l]|] mix]; reflexivity. Qed.
Lemma xc_get_p_inv f v : xc_get_p rg heap f = Ok v -> exists maple ty,
  get_maple_name rg f = Ok maple /\ name_to_type (x_name f) = Ok ty /\
  match x_aux f with
  | None | Some [] => v = VDict (base_fields f maple ty)
  | Some l => exists l', rmap (xc_get_p rg heap) l = Ok l' /\
      v = VDict (base_fields f maple ty ++ [("func_aux", VList l'); ("mix_coef", VArr (mix_array heap (length l) (x_mix f)))]%b)
  end.
Proof.
  rewrite xc_get_p_unfold.
  destruct (get_maple_name rg f) as [maple|]; cbn [rbind]; [|discriminate].
  destruct (name_to_type (x_name f)) as [ty|] eqn:Et; cbn [rbind]; [|discriminate]. intros H. exists maple, ty.
  split; [reflexivity|]. split; [reflexivity|].
  destruct (x_aux f) as [[|g l]|]; try (injection H as <-; reflexivity).
  destruct (rmap (xc_get_p rg heap) (g :: l)) as [l'|] eqn:E; cbn [rbind] in H; [|discriminate]. exists l'. split; [reflexivity|].
  injection H as <-.
  assert (L : forall l l', rmap (xc_get_p rg heap) l = Ok l' -> length l' = length l).
  { clear. induction l as [|x l IH]; cbn; intros l' H; [injection H as <-; reflexivity|].
    destruct (xc_get_p rg heap x); cbn [rbind] in H; [|discriminate]. fold (rmap (xc_get_p rg heap)) in H.
    destruct (rmap (xc_get_p rg heap) l) eqn:E; cbn [rbind] in H; [|discriminate]. injection H as <-. simpl. rewrite (IH _ eq_refl). reflexivity. }
  rewrite (L _ _ E). reflexivity.
Qed.

Lemma names_ok_members f : names_ok f -> members_ok (x_struct f).
Proof. destruct f. cbn. intros [H _]. exact H. Qed.
Lemma names_ok_components f : names_ok f -> Forall names_ok (components f).
Proof.
  destruct f as [name lda gga mgga init scal nspin str aux mix]. cbn. intros [_ H]. unfold components. cbn [x_aux].
  destruct aux as [l|]; [|constructor]. induction l as [|g l IH]; constructor; [apply H|apply IH, H].
Qed.
Lemma rmap_Forall2 {A B} (g : A -> res B) l l' : rmap g l = Ok l' <-> Forall2 (fun x y => g x = Ok y) l l'.
Proof.
  revert l'. induction l as [|x l IH]; intros l'; cbn.
  - split; [intros H; injection H as <-; constructor|intros H; inversion H; reflexivity].
  - fold (rmap g). split.
    + intros H. destruct (g x) eqn:Ex; cbn [rbind] in H; [|discriminate]. destruct (rmap g l) eqn:El; cbn [rbind] in H; [|discriminate].
      injection H as <-. constructor; [exact Ex|apply IH; reflexivity].
    + intros H. inversion H as [|? y ? l0 H1 H2]; subst. rewrite H1. cbn [rbind]. apply IH in H2. rewrite H2. reflexivity.
Qed.

Lemma go_dict (d : list (bstr * pval)) :
  (forall kv, In kv d -> usable_field (ren (fst kv)) = true /\ usable (snd kv) (ren (fst kv))) ->
  (fix go (d : list (bstr * pval)) : Prop :=
     match d with [] => True | kv :: d => usable_field (ren (fst kv)) = true /\ usable (snd kv) (ren (fst kv)) /\ go d end) d.
Proof.
  induction d as [|kv d IH]; intros H; [exact Logic.I|]. destruct (H kv (or_introl eq_refl)). split; [assumption|]. split; [assumption|].
  apply IH. intros kv' Hin. apply H. right. exact Hin.
Qed.
Lemma base_usable f maple ty : members_ok (x_struct f) ->
  forall kv, In kv (base_fields f maple ty) -> usable_field (ren (fst kv)) = true /\ usable (snd kv) (ren (fst kv)).
Proof.
  intros Hm kv Hin. unfold base_fields, scalar_fields in Hin. cbn [app In] in Hin.
  repeat (destruct Hin as [<-|Hin]; [split; [reflexivity|try exact Logic.I; apply (params_usable f Hm)]|]). contradiction.
Qed.
Lemma xc_get_p_usable : forall f v name, xc_get_p rg heap f = Ok v -> names_ok f -> usable_name name = true -> usable v name /\ exists d, v = VDict d.
Proof.
  induction f as [nm lda gga mgga init scal nspin str aux mix IH] using xc_ind'. intros v name Hv Hn Hname.
  pose proof (names_ok_members _ Hn) as Hm. pose proof (names_ok_components _ Hn) as Hc.
  destruct (xc_get_p_inv _ v Hv) as (maple & ty & _ & _ & H). cbn [x_aux] in H. unfold components in Hc. cbn [x_aux] in Hc.
  assert (Hno : aux = None \/ aux = Some [] -> usable v name /\ exists d, v = VDict d).
  { intros Ha. assert (E : v = VDict (base_fields (XC nm lda gga mgga init scal nspin str aux mix) maple ty))
      by (destruct Ha as [-> | ->]; exact H). subst v. split; [|eauto].
    cbn [usable]. split; [exact Hname|]. split.
    - split; [|cbn; intros [H1 H2]; repeat (destruct H1 as [H1|H1]; [discriminate H1|]); contradiction].
      apply distinct_NoDup. reflexivity.
    - apply go_dict. apply base_usable, Hm. }
  destruct aux as [[|g l]|]; auto.
  destruct H as (l' & Hl & ->). split; [|eauto]. cbn [usable]. split; [exact Hname|]. split.
  - split; [|cbn; intros [H1 H2]; repeat (destruct H1 as [H1|H1]; [discriminate H1|]); contradiction].
    apply distinct_NoDup. reflexivity.
  - apply go_dict. intros kv Hin. apply in_app_or in Hin. destruct Hin as [Hin|[<-|[<-|[]]]].
    + apply (base_usable _ _ _ Hm kv Hin).
    + split; [reflexivity|]. cbn [fst snd usable]. apply rmap_Forall2 in Hl. specialize (IH _ eq_refl).
      change (ren "func_aux") with "func_aux"%b.
      clear - Hl IH Hc. induction Hl as [|x y xs ys Hx Hxs IHl]; [exact Logic.I|].
      inversion IH as [|? ? I1 I2]; subst. inversion Hc as [|? ? C1 C2]; subst. split; [|apply IHl; assumption].
      destruct (I1 y "func_aux"%b Hx C1 eq_refl) as [Hu [d ->]]. exact Hu.
    + split; [reflexivity|exact Logic.I].
Qed.

Lemma mirrors_dict d r : mirrors (VDict d) r -> exists n fs, r = VRec n fs /\ NoDup (keys fs) /\
  (forall k v, In (k, v) d -> exists v', getattr r (ren k) = Some v' /\ mirrors v v') /\
  (forall k v', getattr r k = Some v' -> exists k0, In k0 (keys d) /\ k = ren k0).
Proof.
  intros H. inversion H as [v Ha|?|d' n fs H1 H2 H3 H4]; subst; [contradiction|]. exists n, fs.
  split; [reflexivity|]. split; [exact H1|]. split; [exact H3|]. intros k v' E. apply H4. cbn in E. unfold dget in E.
  apply assoc_In in E. apply (in_map fst) in E. exact E.
Qed.
Lemma mirrors_atom v r : atom v -> mirrors v r -> r = v.
Proof. intros Ha H. inversion H; subst; auto; contradiction. Qed.

Lemma mirrors_record : forall f v r, xc_get_p rg heap f = Ok v -> names_ok f -> mirrors v r -> record_of f r.
Proof.
  induction f as [nm lda gga mgga init scal nspin str aux mix IH] using xc_ind'. intros v r Hv Hn Hmir.
  pose proof (names_ok_members _ Hn) as Hm. pose proof (names_ok_components _ Hn) as Hc.
  set (f := XC nm lda gga mgga init scal nspin str aux mix) in *.
  destruct (xc_get_p_inv f v Hv) as (maple & ty & Em & Et & H).
  assert (Hd : exists d, v = VDict d /\ (forall kv, In kv (base_fields f maple ty) -> In kv d) /\
    (components f = [] -> d = base_fields f maple ty) /\
    (components f <> [] -> exists l', rmap (xc_get_p rg heap) (components f) = Ok l' /\
       d = base_fields f maple ty ++ [("func_aux", VList l'); ("mix_coef", VArr (mix_array heap (length (components f)) (x_mix f)))]%b)).
  { unfold components. destruct (x_aux f) as [[|g l]|].
    - exists (base_fields f maple ty). repeat split; auto. intros X; congruence.
    - destruct H as (l' & Hl & ->). eexists. split; [reflexivity|]. split; [intros kv Hin; apply in_or_app; left; exact Hin|].
      split; [discriminate|]. intros _. exists l'. auto.
    - exists (base_fields f maple ty). repeat split; auto. intros X; congruence. }
  destruct Hd as (d & -> & Hbase & Hnil & Hcons). clear H.
  destruct (mirrors_dict d r Hmir) as (n & fs & Er & _ & Hget & Hback).
  assert (Hatom : forall k v, In (k, v) (base_fields f maple ty) -> atom v -> getattr r (ren k) = Some v).
  { intros k w Hin Ha. destruct (Hget k w (Hbase _ Hin)) as (w' & E & M). rewrite E. f_equal. exact (mirrors_atom w w' Ha M). }
  destruct (Hget "params"%b (VDict (params_dict f)) (Hbase ("params"%b, VDict (params_dict f)) ltac:(unfold base_fields, scalar_fields; cbn [app In]; tauto))) as (prm & Eprm & Mprm).
  destruct (mirrors_dict _ _ Mprm) as (pn & pf & Epf & Pn & Pget & Pback).
  assert (Haux : exists l', Forall2 record_of (components f) l' /\
     (components f <> [] -> getattr r "func_aux" = Some (VList l') /\
       getattr r "mix_coef" = Some (VArr (mix_array heap (length (components f)) (x_mix f))))).
  { destruct (components f) as [|g l] eqn:Ec; [exists []; split; [constructor|congruence]|]. rewrite <- Ec in *.
    assert (Hne : components f <> []) by congruence. destruct (Hcons Hne) as (l0 & Hl0 & Ed).
    destruct (Hget "func_aux"%b (VList l0)) as (w & Ew & Mw). { rewrite Ed. apply in_or_app. right. left. reflexivity. }
    destruct (Hget "mix_coef"%b (VArr (mix_array heap (length (components f)) (x_mix f)))) as (w2 & Ew2 & Mw2).
    { rewrite Ed. apply in_or_app. right. right. left. reflexivity. }
    apply mirrors_atom in Mw2; [|exact Logic.I]. subst w2.
    inversion Mw as [? Ha|? l' HF|]; subst; [contradiction|]. exists l'. split; [|auto].
    apply rmap_Forall2 in Hl0.
    assert (IHc : Forall (fun f => forall v r, xc_get_p rg heap f = Ok v -> names_ok f -> mirrors v r -> record_of f r) (components f)).
    { unfold f, components in *. cbn [x_aux] in *. destruct aux as [al|]; [apply IH; reflexivity|constructor]. }
    clear - Hl0 HF IHc Hc. revert l' HF. induction Hl0 as [|x y xs ys Hx Hxs IHl]; intros l' HF; inversion HF; subst; constructor.
    - inversion IHc as [|? ? I1 I2]; subst. inversion Hc; subst. eapply I1; eassumption.
    - inversion IHc as [|? ? I1 I2]; subst. inversion Hc; subst. apply IHl; assumption. }
  destruct Haux as (l' & Hl' & Haux).
  assert (At : forall k w, In (k, w) (base_fields f maple ty) -> atom w -> ren k = k -> getattr r k = Some w)
    by (intros k w H1 H2 H3; rewrite <- H3; apply Hatom; assumption).
  apply (record_intro f r prm maple ty l');
    try (apply At; [unfold base_fields, scalar_fields; cbn [app In x_name x_scal]; tauto|exact Logic.I|reflexivity]); auto.
  - intros k a. destruct (get_params_spec f) as (Gn & Gs & Ga). split.
    + intros E. destruct (Pback _ _ E) as (k0 & Hk0 & Ek0). rewrite params_keys in Hk0.
      destruct (assoc k0 (get_params rg f)) as [a0|] eqn:Ea0; [|apply assoc_None in Ea0; contradiction].
      destruct (Pget k0 (VArr a0)) as (w & Ew & Mw).
      { unfold params_dict. apply in_map_iff. exists (k0, a0). split; [reflexivity|]. apply assoc_In, Ea0. }
      apply mirrors_atom in Mw; [|exact Logic.I]. subst w. rewrite <- Ek0 in Ew. assert (a0 = a) by congruence. subst a0.
      apply Ga in Ea0. destruct Ea0 as (fields & F1 & F2 & F3). exists fields, k0. auto.
    + intros (fields & k' & F1 & F2 & F3 & F4). rewrite <- F4.
      destruct (Pget k' (VArr a)) as (w & Ew & Mw).
      { unfold params_dict. apply in_map_iff. exists (k', a). split; [reflexivity|]. apply assoc_In. apply Ga. eauto. }
      apply mirrors_atom in Mw; [|exact Logic.I]. subst w. exact Ew.
  - intros Hnil'. specialize (Hnil Hnil'). subst d. split.
    + destruct (getattr r "func_aux") as [w|] eqn:E; [|reflexivity]. destruct (Hback _ _ E) as (k0 & Hk & Ek).
      cbn in Hk. repeat (destruct Hk as [<-|Hk]; [discriminate Ek|]). contradiction.
    + destruct (getattr r "mix_coef") as [w|] eqn:E; [|reflexivity]. destruct (Hback _ _ E) as (k0 & Hk & Ek).
      cbn in Hk. repeat (destruct Hk as [<-|Hk]; [discriminate Ek|]). contradiction.
Qed.

Theorem record_mirrors_libxc f v : xc_get_p rg heap f = Ok v -> names_ok f ->
  exists r, get_record rg heap f = Ok r /\ record_of f r.
Proof.
  intros Hv Hn. destruct (xc_get_p_usable f v "P" Hv Hn eq_refl) as [Hu [d ->]].
  destruct (dict_to_namedtuple_lossless d "P" Hu) as (r & Er & Hr). exists r. unfold get_record. rewrite Hv. cbn [rbind].
  split; [exact Er|]. exact (mirrors_record f (VDict d) r Hv Hn Hr).
Qed.
(** The extension fails only for a functional, or a component, with no family or no formula. *)
Theorem get_p_fails f e : xc_get_p rg heap f = Err e -> e = RuntimeError.
Proof.
  revert e. induction f as [nm lda gga mgga init scal nspin str aux mix IH] using xc_ind'. intros e. rewrite xc_get_p_unfold. cbn [x_name x_aux].
  destruct (get_maple_name rg _) as [maple|e0] eqn:Em; cbn [rbind].
  2:{ intros H. injection H as <-. revert Em. unfold get_maple_name. cbn [x_name x_aux].
      destruct (beqb nm _); [discriminate|]. destruct (beqb nm _); [discriminate|]. destruct aux as [aux0|]; [discriminate|].
      destruct (work_key _) as [k|]; [destruct (last_of _ k)|]; congruence. }
  destruct (name_to_type nm) as [ty|e0] eqn:Et; cbn [rbind].
  2:{ intros H. injection H as <-. revert Et. unfold name_to_type. repeat match goal with |- context [if ?b then _ else _] => destruct b end; congruence. }
  destruct aux as [[|g l]|]; try discriminate. specialize (IH _ eq_refl).
  assert (G : forall ll, Forall (fun f => forall e, xc_get_p rg heap f = Err e -> e = RuntimeError) ll -> forall e, rmap (xc_get_p rg heap) ll = Err e -> e = RuntimeError).
  { clear. induction ll as [|x ll IH]; intros HF e H; [discriminate|]. inversion HF as [|? ? H1 H2]; subst. cbn in H. fold (rmap (xc_get_p rg heap)) in H.
    destruct (xc_get_p rg heap x) eqn:E; cbn [rbind] in H; [|injection H as <-; auto].
    destruct (rmap (xc_get_p rg heap) ll) eqn:E2; cbn [rbind] in H; [discriminate|]. injection H as <-. eapply IH; eauto. }
  destruct (rmap (xc_get_p rg heap) (g :: l)) eqn:E; cbn [rbind]; [discriminate|]. intros H. injection H as <-. eapply G; eauto.
Qed.
End Rec.
