(** The record obtained from libxc as the evaluation path reads it, and what deorbitalized
    functionals become (C12). *)
From Coq Require Import Reals List Bool ZArith Arith Strings.Byte Lia Lra.
From Verif Require Import Bytes Syntax Parser Src Semantics Impl ImplThm Records RecordsThm RecordsThm2.
Import ListNotations.
Open Scope R_scope.

(** [reads r p]: every attribute the evaluation path looks up in the Python record [r] has the
    value given by the functional record [p] of Impl.v. *)
Inductive reads : pval -> func_p -> Prop :=
| reads_single r p n fs :
    getattr r "name" = Some (VStr (fp_name p)) -> getattr r "type" = Some (VStr (fp_type p)) ->
    getattr r "nspin" = Some (VInt (fp_nspin p)) -> getattr r "maple_name" = Some (VStr (fp_maple p)) ->
    read_scalars r = Some (fp_scal p) ->
    getattr r "params" = Some (VRec n fs) -> (forall y, fp_params p y = param_of fs y) ->
    getattr r "func_aux" = None -> getattr r "mix_coef" = None ->
    fp_aux p = None -> fp_mix p = None -> reads r p
| reads_mixture r p n fs l' l a :
    getattr r "name" = Some (VStr (fp_name p)) -> getattr r "type" = Some (VStr (fp_type p)) ->
    getattr r "nspin" = Some (VInt (fp_nspin p)) -> getattr r "maple_name" = Some (VStr (fp_maple p)) ->
    read_scalars r = Some (fp_scal p) ->
    getattr r "params" = Some (VRec n fs) -> (forall y, fp_params p y = param_of fs y) ->
    getattr r "func_aux" = Some (VList l') -> getattr r "mix_coef" = Some (VArr a) ->
    fp_aux p = Some l -> fp_mix p = Some (a_data a) -> Forall2 reads l' l -> reads r p.

Section Rec.
Variable rg : registries.
Variable heap : nat -> list R.

Lemma func_of_unfold f : func_of rg heap f =
  (maple <- get_maple_name rg f;; ty <- name_to_type (x_name f);;
   let params := param_of (rename (params_dict rg f)) in
   match x_aux f with
   | None | Some [] => Ok (FuncP (x_name f) ty (x_nspin f) maple (x_scal f) params None None)
   | Some l => l' <- rmap (func_of rg heap) l;;
       Ok (FuncP (x_name f) ty (x_nspin f) maple (x_scal f) params (Some l') (Some (a_data (mix_array heap (length l') (x_mix f)))))
   end).
Proof. destruct f as [name lda gga mgga init scal nspin str [[|g l]|] mix]; reflexivity. Qed.

Lemma seq_atoms (d : list (bstr * pval)) : Forall (fun kv => atom (snd kv)) d ->
  seq (map (fun kv => (fst kv, convert (snd kv))) d) = Ok d.
Proof.
  induction 1 as [|[k v] d Ha _ IH]; [reflexivity|]. cbn [map seq fst snd]. rewrite IH.
  destruct v; cbn in Ha; try contradiction; reflexivity.
Qed.
Lemma rename_map {A B} (g : A -> B) (d : list (bstr * A)) :
  rename (map (fun kv => (fst kv, g (snd kv))) d) = map (fun kv => (fst kv, g (snd kv))) (rename d).
Proof.
  assert (Hp : forall k (d : list (bstr * A)), dpop (map (fun kv => (fst kv, g (snd kv))) d) k = map (fun kv => (fst kv, g (snd kv))) (dpop d k)).
  { intros k. induction d0 as [|[a b] l IH]; [reflexivity|]. cbn. destruct (beqb a k); [reflexivity|]. cbn. rewrite IH. reflexivity. }
  assert (Hs : forall k v (d : list (bstr * A)), dset (map (fun kv => (fst kv, g (snd kv))) d) k (g v) = map (fun kv => (fst kv, g (snd kv))) (dset d k v)).
  { intros k v. induction d0 as [|[a b] l IH]; [reflexivity|]. cbn. destruct (beqb a k); [reflexivity|]. cbn. rewrite IH. reflexivity. }
  assert (Ha : forall k (d : list (bstr * A)), assoc k (map (fun kv => (fst kv, g (snd kv))) d) = option_map g (assoc k d)).
  { intros k. induction d0 as [|[a b] l IH]; [reflexivity|]. cbn. destruct (beqb k a); [reflexivity|]. exact IH. }
  unfold rename, dget. rewrite Ha. destruct (assoc "lambda" d); cbn [option_map]; [|reflexivity]. rewrite Hp, Hs. reflexivity.
Qed.
Lemma rename_forall {A} (P : bstr * A -> Prop) (d : list (bstr * A)) : (forall k k' v, P (k, v) -> P (k', v)) ->
  Forall P d -> Forall P (rename d).
Proof.
  intros HP H. unfold rename, dget. destruct (assoc "lambda" d) as [v|] eqn:E; [|exact H].
  apply assoc_In in E. assert (Hv : P ("lambda_"%b, v)) by (apply (HP "lambda"%b); rewrite Forall_forall in H; exact (H _ E)).
  assert (Hp : Forall P (dpop d "lambda")).
  { clear E. induction d as [|[a b] d IH]; [constructor|]. inversion H; subst. cbn. destruct (beqb a "lambda"); [assumption|]. constructor; auto. }
  induction (dpop d "lambda") as [|[a b] l IH]; [repeat constructor; exact Hv|]. inversion Hp; subst. cbn.
  destruct (beqb a "lambda_"); constructor; auto.
Qed.
Lemma params_convert f r : convert (VDict (params_dict rg f)) "params" = Ok r ->
  r = VRec "params" (rename (params_dict rg f)).
Proof.
  cbn [convert]. rewrite (rename_map convert (params_dict rg f)).
  rewrite seq_atoms.
  - cbn [rbind]. unfold namedtuple. destruct (_ && _)%bool; [|discriminate]. intros H. injection H as <-. reflexivity.
  - apply rename_forall; [auto|]. unfold params_dict. apply Forall_forall. intros kv H. apply in_map_iff in H.
    destruct H as (x & <- & _). exact Logic.I.
Qed.

Lemma rbind_ok {A B} (m : res A) (k : A -> res B) y : rbind m k = Ok y -> exists x, m = Ok x /\ k x = Ok y.
Proof. destruct m as [x|]; cbn; [eauto|discriminate]. Qed.


Lemma convert_attr d name r : assoc "lambda" d = None -> convert (VDict d) name = Ok r ->
  forall k, match assoc k d with
            | Some v => exists v', getattr r k = Some v' /\ convert v k = Ok v'
            | None => getattr r k = None
            end.
Proof.
  intros Hl Hr. cbn [convert] in Hr. apply rbind_ok in Hr. destruct Hr as (fs & Hs & Hr).
  unfold namedtuple in Hr. destruct (_ && _)%bool; [|discriminate]. injection Hr as <-. cbn [getattr]. unfold dget.
  assert (E : rename (map (fun kv => (fst kv, convert (snd kv))) d) = map (fun kv => (fst kv, convert (snd kv))) d).
  { rewrite (rename_map convert d). unfold rename, dget. rewrite Hl. reflexivity. }
  assert (Hs' : seq (map (fun kv => (fst kv, convert (snd kv))) d) = Ok fs) by (rewrite <- E; exact Hs). clear Hs E Hl.
  revert fs Hs'. induction d as [|[a b] d IH]; intros fs Hs k; cbn [map seq fst snd] in Hs.
  - injection Hs as <-. reflexivity.
  - apply rbind_ok in Hs. destruct Hs as (v & Hv & Hs). apply rbind_ok in Hs. destruct Hs as (fs' & Hs & E). injection E as <-.
    cbn [assoc]. destruct (beqb k a) eqn:Ek; [|apply IH, Hs]. apply beqb_eq in Ek. subst a. eauto.
Qed.
Lemma read_scalars_of d r s : assoc "lambda" d = None -> (exists name, convert (VDict d) name = Ok r) ->
  (forall k v, In (k, v) (scalar_fields s) -> assoc k d = Some v) -> read_scalars r = Some s.
Proof.
  intros Hl [name Hr] H. pose proof (convert_attr d name r Hl Hr) as G.
  assert (K : forall k x, In (k, VFloat x) (scalar_fields s) -> getattr r k = Some (VFloat x)).
  { intros k x Hin. specialize (G k). rewrite (H k _ Hin) in G. destruct G as (v' & E & Ev). injection Ev as <-. exact E. }
  unfold read_scalars. rewrite !(K _ _) by (unfold scalar_fields; cbn [In]; eauto 12). destruct s; reflexivity.
Qed.

Theorem record_read : forall f v name r, xc_get_p rg heap f = Ok v -> convert v name = Ok r ->
  exists p, func_of rg heap f = Ok p /\ reads r p.
Proof.
  induction f as [nm lda gga mgga init scal nspin str aux mix IH] using xc_ind'. intros v name r Hv Hr.
  destruct (xc_get_p_inv rg heap _ v Hv) as (maple & ty & Em & Et & H). rewrite func_of_unfold, Em, Et. cbn [rbind].
  cbn [x_aux x_name x_mix] in *. set (f := XC nm lda gga mgga init scal nspin str aux mix) in *.
  assert (C : (aux = None \/ aux = Some [] ) \/ exists g l, aux = Some (g :: l))
    by (destruct aux as [[|g l]|]; eauto).
  destruct C as [C|(g & l & ->)].
  - assert (E : v = VDict (base_fields rg f maple ty)) by (destruct C as [-> | ->]; exact H). subst v. clear H.
    exists (FuncP nm ty nspin maple scal (param_of (rename (params_dict rg f))) None None).
    split; [destruct C as [-> | ->]; reflexivity|].
    pose proof (convert_attr (base_fields rg f maple ty) name r eq_refl Hr) as G.
    pose proof (G "params"%b) as (w & Gp & Ep). apply params_convert in Ep. subst w.
    apply (reads_single r _ "params" (rename (params_dict rg f))); cbn [fp_name fp_type fp_nspin fp_maple fp_scal fp_params fp_aux fp_mix]; auto.
    + destruct (G "name"%b) as (w & Gn & En). injection En as <-. exact Gn.
    + destruct (G "type"%b) as (w & Gn & En). injection En as <-. exact Gn.
    + destruct (G "nspin"%b) as (w & Gn & En). injection En as <-. exact Gn.
    + destruct (G "maple_name"%b) as (w & Gn & En). injection En as <-. exact Gn.
    + apply (read_scalars_of (base_fields rg f maple ty)); [reflexivity|eauto|].
      intros k x Hin. unfold scalar_fields in Hin. cbn [In] in Hin.
      repeat (destruct Hin as [Hin|Hin]; [injection Hin as <- <-; reflexivity|]). contradiction.
    + exact (G "func_aux"%b).
    + exact (G "mix_coef"%b).
  - destruct H as (l' & Hl & ->). specialize (IH _ eq_refl).
    pose proof (convert_attr (base_fields rg f maple ty ++ [("func_aux", VList l'); ("mix_coef", VArr (mix_array heap (length (g :: l)) mix))]%b) name r eq_refl Hr) as G.
    destruct (G "func_aux"%b) as (w & Ga & Ea). cbn [convert] in Ea. apply rbind_ok in Ea. destruct Ea as (rl & Erl & E). injection E as <-.
    assert (Hx : exists ps, rmap (func_of rg heap) (g :: l) = Ok ps /\ Forall2 reads rl ps).
    { clear - IH Hl Erl. revert l' rl Hl Erl. induction (g :: l) as [|x xs IHx]; intros l' rl Hl Erl.
      - injection Hl as <-. injection Erl as <-. exists []. auto.
      - inversion IH as [|? ? I1 I2]; subst. cbn in Hl. fold (rmap (xc_get_p rg heap)) in Hl.
        apply rbind_ok in Hl. destruct Hl as (y & Hy & Hl). apply rbind_ok in Hl. destruct Hl as (ys & Hys & E). injection E as <-.
        cbn in Erl. apply rbind_ok in Erl. destruct Erl as (ry & Hry & Erl). apply rbind_ok in Erl. destruct Erl as (rys & Hrys & E). injection E as <-.
        destruct y; try discriminate. destruct (I1 _ _ _ Hy Hry) as (p & Ep & Rp).
        destruct (IHx I2 ys rys Hys Hrys) as (ps & Eps & Rps). exists (p :: ps). cbn. fold (rmap (func_of rg heap)). rewrite Ep, Eps. auto. }
    destruct Hx as (ps & Eps & Rps). rewrite Eps. cbn [rbind].
    eexists. split; [reflexivity|].
    pose proof (G "params"%b) as (w & Gp & Ep). apply params_convert in Ep. subst w.
    assert (Hlen : length ps = length (g :: l)).
    { clear - Eps. revert ps Eps. induction (g :: l) as [|x xs IH]; intros ps E; [injection E as <-; reflexivity|].
      cbn in E. fold (rmap (func_of rg heap)) in E. apply rbind_ok in E. destruct E as (y & _ & E). apply rbind_ok in E. destruct E as (ys & E1 & E). injection E as <-.
      cbn. f_equal. apply IH, E1. }
    apply (reads_mixture r _ "params" (rename (params_dict rg f)) rl ps (mix_array heap (length (g :: l)) mix)); cbn [fp_name fp_type fp_nspin fp_maple fp_scal fp_params fp_aux fp_mix]; auto.
    + destruct (G "name"%b) as (w & Gn & En). injection En as <-. exact Gn.
    + destruct (G "type"%b) as (w & Gn & En). injection En as <-. exact Gn.
    + destruct (G "nspin"%b) as (w & Gn & En). injection En as <-. exact Gn.
    + destruct (G "maple_name"%b) as (w & Gn & En). injection En as <-. exact Gn.
    + apply (read_scalars_of (base_fields rg f maple ty ++ [("func_aux", VList l'); ("mix_coef", VArr (mix_array heap (length (g :: l)) mix))]%b)); [reflexivity|eauto|].
      intros k x Hin. unfold scalar_fields in Hin. cbn [In] in Hin.
      repeat (destruct Hin as [Hin|Hin]; [injection Hin as <- <-; reflexivity|]). contradiction.
    + destruct (G "mix_coef"%b) as (w & Gn & En). injection En as <-. exact Gn.
    + rewrite Hlen. reflexivity.
Qed.

(** A functional that libxc builds by deorbitalization has two components and no mixing
    coefficients (xc_deorbitalize_init leaves mix_coef NULL).  Whatever its work functions, it is
    evaluated as a mixture with the coefficients found in uninitialised memory. *)
Theorem deorbitalized_becomes_mixture f f0 f1 ty p0 p1 : ~ special (x_name f) ->
  x_aux f = Some [f0; f1] -> x_mix f = None -> name_to_type (x_name f) = Ok ty ->
  func_of rg heap f0 = Ok p0 -> func_of rg heap f1 = Ok p1 ->
  exists p, func_of rg heap f = Ok p /\ fp_maple p = ""%b /\ fp_aux p = Some [p0; p1] /\ fp_mix p = Some (heap 2%nat).
Proof.
  intros Hs Ha Hm Ht H0 H1. rewrite func_of_unfold, Ha, Hm, Ht.
  rewrite (proj1 (resolution rg f Hs)) by congruence. cbn [rbind rmap]. rewrite H0, H1. cbn [rbind].
  eexists. split; [reflexivity|]. auto.
Qed.
Theorem deorbitalized_value I impl d rho mo f f0 f1 ty p0 p1 a b v0 v1 : ~ special (x_name f) ->
  x_aux f = Some [f0; f1] -> x_mix f = None -> name_to_type (x_name f) = Ok ty ->
  func_of rg heap f0 = Ok p0 -> func_of rg heap f1 = Ok p1 -> heap 2%nat = [a; b] ->
  invoke I impl d rho mo p0 = Ok (Some v0) -> invoke I impl d rho mo p1 = Ok (Some v1) ->
  exists p, func_of rg heap f = Ok p /\ invoke I impl d rho mo p = Ok (Some (a * v0 + b * v1)).
Proof.
  intros Hs Ha Hm Ht H0 H1 Hh V0 V1.
  destruct (deorbitalized_becomes_mixture f f0 f1 ty p0 p1 Hs Ha Hm Ht H0 H1) as (p & Ep & Emp & Eaux & Emix).
  exists p. split; [exact Ep|]. destruct p as [name t ns mp sc pa aux mix]. cbn [fp_maple fp_aux fp_mix] in *. subst mp aux mix.
  cbn [invoke]. change (beqb "" DEORBITALIZE) with false. change (beqb "" "") with true. rewrite Hh, V0, V1. cbn [rbind].
  unfold py_sum. cbn [fold_left oscale oadd]. do 2 f_equal. lra.
Qed.
End Rec.
