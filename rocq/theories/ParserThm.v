(** The parser's fuel is enough: a parse that succeeds with some fuel succeeds with any fuel
    above ten per token. *)
From Coq Require Import Strings.Byte List Bool NArith ZArith QArith Lia PeanoNat.
From Verif Require Import Bytes Syntax Parser.
Import ListNotations.

Section Fuel.
Variable v : vocabulary.
(** The defining equations of the parser. *)
Lemma p_cmp_S n ts : p_cmp v (S n) ts =

      match p_sum v n ts with
      | Some (a, TLe :: ts) =>
          match p_sum v n ts with Some (b, ts) => Some (ECmp CLe a b, ts) | None => None end
      | Some (a, TLt :: ts) =>
          match p_sum v n ts with Some (b, ts) => Some (ECmp CLt a b, ts) | None => None end
      | Some (a, TEqEq :: ts) =>
          match p_sum v n ts with Some (b, ts) => Some (ECmp CEq a b, ts) | None => None end
      | r => r
      end.
Proof. reflexivity. Qed.
Lemma p_sum_S n ts : p_sum v (S n) ts =

      match p_mul v n ts with
      | Some (a, ts) => p_sum_rest v n a ts
      | None => None
      end.
Proof. reflexivity. Qed.
Lemma p_sum_rest_S n a ts : p_sum_rest v (S n) a ts =

      match ts with
      | TPlus :: ts =>
          match p_mul v n ts with Some (b, ts) => p_sum_rest v n (EAdd a b) ts | None => None end
      | TMinus :: ts =>
          match p_mul v n ts with Some (b, ts) => p_sum_rest v n (ESub a b) ts | None => None end
      | _ => Some (a, ts)
      end.
Proof. reflexivity. Qed.
Lemma p_mul_S n ts : p_mul v (S n) ts =

      match p_un v n ts with
      | Some (a, ts) => p_mul_rest v n a ts
      | None => None
      end.
Proof. reflexivity. Qed.
Lemma p_mul_rest_S n a ts : p_mul_rest v (S n) a ts =

      match ts with
      | TStar :: ts =>
          match p_un v n ts with Some (b, ts) => p_mul_rest v n (EMul a b) ts | None => None end
      | TSlash :: ts =>
          match p_un v n ts with Some (b, ts) => p_mul_rest v n (EDiv a b) ts | None => None end
      | _ => Some (a, ts)
      end.
Proof. reflexivity. Qed.
Lemma p_un_S n ts : p_un v (S n) ts =

      match ts with
      | TMinus :: ts => match p_un v n ts with Some (a, ts) => Some (ENeg a, ts) | None => None end
      | _ =>
        match p_atom v n ts with
        | Some (a, TPow :: ts) =>
            match p_un v n ts with Some (b, ts) => Some (EPow a b, ts) | None => None end
        | r => r
        end
      end.
Proof. reflexivity. Qed.
Lemma p_atom_S n ts : p_atom v (S n) ts =

      match ts with
      | TNum q :: ts => Some (ENum q, ts)
      | TId f :: TLp :: ts =>
          match p_args v n ts with
          | Some (args, ts) =>
              match mk_call v f args with Some e => Some (e, ts) | None => None end
          | None => None
          end
      | TId x :: ts => Some (mk_var v x, ts)
      | TLp :: ts =>
          match p_cmp v n ts with
          | Some (a, TRp :: ts) => Some (a, ts)
          | _ => None
          end
      | _ => None
      end.
Proof. reflexivity. Qed.
Lemma p_args_S n ts : p_args v (S n) ts =

      match p_cmp v n ts with
      | Some (a, TRp :: ts) => Some ([a], ts)
      | Some (a, TComma :: ts) =>
          match p_args v n ts with Some (l, ts) => Some (a :: l, ts) | None => None end
      | _ => None
      end.
Proof. reflexivity. Qed.
(** From [ts] a parse reads [c] tokens and leaves [r]. *)
Definition good {A} (p : nat -> list tok -> option (A * list tok)) (low add : nat) (ts : list tok) (x : A) (r : list tok) : Prop :=
  exists c, (low <= c)%nat /\ length ts = (c + length r)%nat /\ forall k, (10 * c + add <= k)%nat -> p k ts = Some (x, r).
Definition bounds (n : nat) : Prop :=
  (forall ts e r, p_cmp v n ts = Some (e, r) -> good (p_cmp v) 1 5 ts e r) /\
  (forall ts e r, p_sum v n ts = Some (e, r) -> good (p_sum v) 1 4 ts e r) /\
  (forall a ts e r, p_sum_rest v n a ts = Some (e, r) -> good (fun k => p_sum_rest v k a) 0 1 ts e r) /\
  (forall ts e r, p_mul v n ts = Some (e, r) -> good (p_mul v) 1 3 ts e r) /\
  (forall a ts e r, p_mul_rest v n a ts = Some (e, r) -> good (fun k => p_mul_rest v k a) 0 1 ts e r) /\
  (forall ts e r, p_un v n ts = Some (e, r) -> good (p_un v) 1 2 ts e r) /\
  (forall ts e r, p_atom v n ts = Some (e, r) -> good (p_atom v) 1 1 ts e r) /\
  (forall ts e r, p_args v n ts = Some (e, r) -> good (p_args v) 1 6 ts e r).

Ltac fuel k := destruct k as [|k]; [lia|].
Ltac use H := rewrite H by lia.
Lemma fuel_bounds n : bounds n.
Proof.
  induction n as [|n (Icmp & Isum & Isumr & Imul & Imulr & Iun & Iatom & Iargs)]; [unfold bounds; refine (conj _ (conj _ (conj _ (conj _ (conj _ (conj _ (conj _ _))))))); (intros ? ? ? ? H || intros ? ? ? H); cbn in H; discriminate H|]. unfold bounds; refine (conj _ (conj _ (conj _ (conj _ (conj _ (conj _ (conj _ _))))))).
  - (* cmp *)
    intros ts e r H. rewrite p_cmp_S in H. destruct (p_sum v n ts) as [[a ts1]|] eqn:E; [|discriminate]. destruct (Isum _ _ _ E) as (c1 & L1 & N1 & K1).
    assert (D : forall o, (match p_sum v n (tl ts1) with Some (b, ts2) => Some (ECmp o a b, ts2) | None => None end = Some (e, r)) ->
                exists b c2, e = ECmp o a b /\ length (tl ts1) = (c2 + length r)%nat /\ forall k, (10 * c2 + 4 <= k)%nat -> p_sum v k (tl ts1) = Some (b, r)).
    { intros o Ho. destruct (p_sum v n (tl ts1)) as [[b ts2]|] eqn:E2; [|discriminate]. injection Ho as <- <-.
      destruct (Isum _ _ _ E2) as (c2 & _ & N2 & K2). exists b, c2. auto. }
    assert (Z : forall k, (10 * c1 + 4 <= k)%nat -> p_sum v k ts = Some (a, ts1)) by exact K1.
    destruct ts1 as [|t ts1].
    { injection H as <- <-. exists c1. repeat split; [lia|exact N1|]. intros k Hk. fuel k. rewrite p_cmp_S. use Z. reflexivity. }
    destruct t; try (injection H as <- <-; exists c1; repeat split; [lia|exact N1|]; intros k Hk; fuel k; rewrite p_cmp_S; use Z; reflexivity);
      (destruct (D _ H) as (b & c2 & -> & N2 & K2); exists (c1 + 1 + c2)%nat; cbn [length tl] in *; repeat split; [lia|lia|];
       intros k Hk; fuel k; rewrite p_cmp_S; use Z; use K2; reflexivity).
  - (* sum *)
    intros ts e r H. rewrite p_sum_S in H. destruct (p_mul v n ts) as [[a ts1]|] eqn:E; [|discriminate]. destruct (Imul _ _ _ E) as (c1 & L1 & N1 & K1).
    destruct (Isumr _ _ _ _ H) as (c2 & L2 & N2 & K2). exists (c1 + c2)%nat. repeat split; [lia|lia|]. intros k Hk. fuel k. rewrite p_sum_S. use K1. apply K2. lia.
  - (* sum_rest *)
    intros a ts e r H. rewrite p_sum_rest_S in H.
    assert (Z : forall k, match ts with TPlus :: _ | TMinus :: _ => False | _ => True end -> p_sum_rest v (S k) a ts = Some (a, ts)) by (intros k; destruct ts as [|[] ts]; intros F; (reflexivity || elim F)).
    destruct ts as [|t ts]; [injection H as <- <-; exists 0%nat; repeat split; [lia|]; intros k Hk; fuel k; apply Z; exact I|].
    destruct t; try (injection H as <- <-; exists 0%nat; repeat split; [lia|]; intros k Hk; fuel k; apply Z; exact I);
      (destruct (p_mul v n ts) as [[b ts1]|] eqn:E; [|discriminate]; destruct (Imul _ _ _ E) as (c1 & L1 & N1 & K1); destruct (Isumr _ _ _ _ H) as (c2 & L2 & N2 & K2);
       exists (1 + c1 + c2)%nat; cbn [length]; repeat split; [lia|lia|]; intros k Hk; fuel k; rewrite p_sum_rest_S; use K1; apply K2; lia).
  - (* mul *)
    intros ts e r H. rewrite p_mul_S in H. destruct (p_un v n ts) as [[a ts1]|] eqn:E; [|discriminate]. destruct (Iun _ _ _ E) as (c1 & L1 & N1 & K1).
    destruct (Imulr _ _ _ _ H) as (c2 & L2 & N2 & K2). exists (c1 + c2)%nat. repeat split; [lia|lia|]. intros k Hk. fuel k. rewrite p_mul_S. use K1. apply K2. lia.
  - (* mul_rest *)
    intros a ts e r H. rewrite p_mul_rest_S in H.
    assert (Z : forall k, match ts with TStar :: _ | TSlash :: _ => False | _ => True end -> p_mul_rest v (S k) a ts = Some (a, ts)) by (intros k; destruct ts as [|[] ts]; intros F; (reflexivity || elim F)).
    destruct ts as [|t ts]; [injection H as <- <-; exists 0%nat; repeat split; [lia|]; intros k Hk; fuel k; apply Z; exact I|].
    destruct t; try (injection H as <- <-; exists 0%nat; repeat split; [lia|]; intros k Hk; fuel k; apply Z; exact I);
      (destruct (p_un v n ts) as [[b ts1]|] eqn:E; [|discriminate]; destruct (Iun _ _ _ E) as (c1 & L1 & N1 & K1); destruct (Imulr _ _ _ _ H) as (c2 & L2 & N2 & K2);
       exists (1 + c1 + c2)%nat; cbn [length]; repeat split; [lia|lia|]; intros k Hk; fuel k; rewrite p_mul_rest_S; use K1; apply K2; lia).
  - (* un *)
    intros ts e r H.
    assert (D : match ts with TMinus :: _ => False | _ => True end -> good (p_un v) 1 2 ts e r).
    { intros F. assert (U : forall k, p_un v (S k) ts = match p_atom v k ts with Some (a, TPow :: ts1) => match p_un v k ts1 with Some (b, ts2) => Some (EPow a b, ts2) | None => None end | r => r end)
        by (intros k; destruct ts as [|[] ts]; (reflexivity || elim F)).
      rewrite U in H. destruct (p_atom v n ts) as [[a ts1]|] eqn:E; [|discriminate]. destruct (Iatom _ _ _ E) as (c1 & L1 & N1 & K1).
      destruct ts1 as [|t ts1]. { injection H as <- <-. exists c1. repeat split; [lia|exact N1|]. intros k Hk. fuel k. rewrite U. use K1. reflexivity. }
      destruct t; try (injection H as <- <-; exists c1; repeat split; [lia|exact N1|]; intros k Hk; fuel k; rewrite U; use K1; reflexivity).
      destruct (p_un v n ts1) as [[b ts2]|] eqn:E2; [|discriminate]. injection H as <- <-. destruct (Iun _ _ _ E2) as (c2 & L2 & N2 & K2).
      exists (c1 + 1 + c2)%nat. cbn [length] in N1. repeat split; [lia|lia|]. intros k Hk. fuel k. rewrite U. use K1. use K2. reflexivity. }
    destruct ts as [|t ts]; [apply D; exact I|]. destruct t; try (apply D; exact I). clear D. rewrite p_un_S in H.
    destruct (p_un v n ts) as [[b ts1]|] eqn:E; [|discriminate]. injection H as <- <-. destruct (Iun _ _ _ E) as (c1 & L1 & N1 & K1).
    exists (1 + c1)%nat. cbn [length]. repeat split; [lia|lia|]. intros k Hk. fuel k. rewrite p_un_S. use K1. reflexivity.
  - (* atom *)
    intros ts e r H. rewrite p_atom_S in H. destruct ts as [|t ts]; [discriminate|]. destruct t; try discriminate.
    + injection H as <- <-. exists 1%nat. repeat split; [lia|]. intros k Hk. fuel k. reflexivity.
    + assert (D : match ts with TLp :: _ => False | _ => True end -> Some (mk_var v s, ts) = Some (e, r) -> good (p_atom v) 1 1 (TId s :: ts) e r).
      { intros F G. injection G as <- <-. exists 1%nat. repeat split; [lia|]. intros k Hk. fuel k. rewrite p_atom_S. destruct ts as [|[] ts]; (reflexivity || elim F). }
      destruct ts as [|t ts]; [apply (D I H)|]. destruct t; try (apply (D I H)).
      clear D. destruct (p_args v n ts) as [[args ts1]|] eqn:E; [|discriminate]. destruct (mk_call v s args) as [e'|] eqn:M; [|discriminate]. injection H as <- <-.
      destruct (Iargs _ _ _ E) as (c1 & L1 & N1 & K1). exists (2 + c1)%nat. cbn [length]. repeat split; [lia|lia|]. intros k Hk. fuel k. rewrite p_atom_S. use K1. rewrite M. reflexivity.
    + destruct (p_cmp v n ts) as [[a ts1]|] eqn:E; [|discriminate]. destruct (Icmp _ _ _ E) as (c1 & L1 & N1 & K1).
      destruct ts1 as [|t ts1]; [discriminate|]. destruct t; try discriminate. injection H as <- <-.
      exists (2 + c1)%nat. cbn [length] in *. repeat split; [lia|lia|]. intros k Hk. fuel k. rewrite p_atom_S. use K1. reflexivity.
  - (* args *)
    intros ts e r H. rewrite p_args_S in H. destruct (p_cmp v n ts) as [[a ts1]|] eqn:E; [|discriminate]. destruct (Icmp _ _ _ E) as (c1 & L1 & N1 & K1).
    destruct ts1 as [|t ts1]; [discriminate|]. destruct t; try discriminate.
    + injection H as <- <-. exists (c1 + 1)%nat. cbn [length] in *. repeat split; [lia|lia|]. intros k Hk. fuel k. rewrite p_args_S. use K1. reflexivity.
    + destruct (p_args v n ts1) as [[l ts2]|] eqn:E2; [|discriminate]. injection H as <- <-. destruct (Iargs _ _ _ E2) as (c2 & L2 & N2 & K2).
      exists (c1 + 1 + c2)%nat. cbn [length] in *. repeat split; [lia|lia|]. intros k Hk. fuel k. rewrite p_args_S. use K1. use K2. reflexivity.
Qed.

(** ** Parses without fuel *)
Definition Pcmp ts e r := exists n, p_cmp v n ts = Some (e, r).
Definition Psum ts e r := exists n, p_sum v n ts = Some (e, r).
Definition Psumr a ts e r := exists n, p_sum_rest v n a ts = Some (e, r).
Definition Pmul ts e r := exists n, p_mul v n ts = Some (e, r).
Definition Pmulr a ts e r := exists n, p_mul_rest v n a ts = Some (e, r).
Definition Pun ts e r := exists n, p_un v n ts = Some (e, r).
Definition Patom ts e r := exists n, p_atom v n ts = Some (e, r).
Definition Pargs ts e r := exists n, p_args v n ts = Some (e, r).
Definition big (ts : list tok) : nat := 10 * length ts + 10.
Lemma big_cmp ts e r : Pcmp ts e r -> forall k, (big ts <= k)%nat -> p_cmp v k ts = Some (e, r).
Proof. intros (n & H) k Hk. destruct (fuel_bounds n) as (B & _). destruct (B _ _ _ H) as (c & _ & N & K). apply K. unfold big in Hk. lia. Qed.
Lemma big_sum ts e r : Psum ts e r -> forall k, (big ts <= k)%nat -> p_sum v k ts = Some (e, r).
Proof. intros (n & H) k Hk. destruct (fuel_bounds n) as (_ & B & _). destruct (B _ _ _ H) as (c & _ & N & K). apply K. unfold big in Hk. lia. Qed.
Lemma big_sumr a ts e r : Psumr a ts e r -> forall k, (big ts <= k)%nat -> p_sum_rest v k a ts = Some (e, r).
Proof. intros (n & H) k Hk. destruct (fuel_bounds n) as (_ & _ & B & _). destruct (B _ _ _ _ H) as (c & _ & N & K). apply K. unfold big in Hk. lia. Qed.
Lemma big_mul ts e r : Pmul ts e r -> forall k, (big ts <= k)%nat -> p_mul v k ts = Some (e, r).
Proof. intros (n & H) k Hk. destruct (fuel_bounds n) as (_ & _ & _ & B & _). destruct (B _ _ _ H) as (c & _ & N & K). apply K. unfold big in Hk. lia. Qed.
Lemma big_mulr a ts e r : Pmulr a ts e r -> forall k, (big ts <= k)%nat -> p_mul_rest v k a ts = Some (e, r).
Proof. intros (n & H) k Hk. destruct (fuel_bounds n) as (_ & _ & _ & _ & B & _). destruct (B _ _ _ _ H) as (c & _ & N & K). apply K. unfold big in Hk. lia. Qed.
Lemma big_un ts e r : Pun ts e r -> forall k, (big ts <= k)%nat -> p_un v k ts = Some (e, r).
Proof. intros (n & H) k Hk. destruct (fuel_bounds n) as (_ & _ & _ & _ & _ & B & _). destruct (B _ _ _ H) as (c & _ & N & K). apply K. unfold big in Hk. lia. Qed.
Lemma big_atom ts e r : Patom ts e r -> forall k, (big ts <= k)%nat -> p_atom v k ts = Some (e, r).
Proof. intros (n & H) k Hk. destruct (fuel_bounds n) as (_ & _ & _ & _ & _ & _ & B & _). destruct (B _ _ _ H) as (c & _ & N & K). apply K. unfold big in Hk. lia. Qed.
Lemma big_args ts e r : Pargs ts e r -> forall k, (big ts <= k)%nat -> p_args v k ts = Some (e, r).
Proof. intros (n & H) k Hk. destruct (fuel_bounds n) as (_ & _ & _ & _ & _ & _ & _ & B). destruct (B _ _ _ H) as (c & _ & N & K). apply K. unfold big in Hk. lia. Qed.

(** ** Rules *)
Definition cmp_of (t : tok) : option cmpop := match t with TLe => Some CLe | TLt => Some CLt | TEqEq => Some CEq | _ => None end.
Definition head_cmp (ts : list tok) : option cmpop := match ts with t :: _ => cmp_of t | [] => None end.
Lemma cmp_stop ts a r : Psum ts a r -> head_cmp r = None -> Pcmp ts a r.
Proof. intros (n & H) C. exists (S n). rewrite p_cmp_S. rewrite H. destruct r as [|[] r]; (reflexivity || discriminate C). Qed.
Lemma cmp_go ts a t o r b r' : Psum ts a (t :: r) -> cmp_of t = Some o -> Psum r b r' -> Pcmp ts (ECmp o a b) r'.
Proof.
  intros H C H'. exists (S (big ts + big r)). rewrite p_cmp_S. rewrite (big_sum _ _ _ H) by lia. 
  destruct t; try discriminate C; injection C as <-; rewrite (big_sum _ _ _ H') by lia; reflexivity.
Qed.
Lemma sum_intro ts a r e r' : Pmul ts a r -> Psumr a r e r' -> Psum ts e r'.
Proof. intros H H'. exists (S (big ts + big r)). rewrite p_sum_S. rewrite (big_mul _ _ _ H) by lia. apply (big_sumr _ _ _ _ H'). lia. Qed.
Definition add_of (t : tok) : option (expr -> expr -> expr) := match t with TPlus => Some EAdd | TMinus => Some ESub | _ => None end.
Definition head_add (ts : list tok) := match ts with t :: _ => add_of t | [] => None end.
Lemma sumr_stop a ts : head_add ts = None -> Psumr a ts a ts.
Proof. intros C. exists 1%nat. destruct ts as [|[] ts]; (reflexivity || discriminate C). Qed.
Lemma sumr_go a t o ts b r e r' : add_of t = Some o -> Pmul ts b r -> Psumr (o a b) r e r' -> Psumr a (t :: ts) e r'.
Proof.
  intros C H H'. exists (S (big ts + big r)). destruct t; try discriminate C; injection C as <-; rewrite p_sum_rest_S; rewrite (big_mul _ _ _ H) by lia; apply (big_sumr _ _ _ _ H'); lia.
Qed.
Lemma mul_intro ts a r e r' : Pun ts a r -> Pmulr a r e r' -> Pmul ts e r'.
Proof. intros H H'. exists (S (big ts + big r)). rewrite p_mul_S. rewrite (big_un _ _ _ H) by lia. apply (big_mulr _ _ _ _ H'). lia. Qed.
Definition mul_of (t : tok) : option (expr -> expr -> expr) := match t with TStar => Some EMul | TSlash => Some EDiv | _ => None end.
Definition head_mul (ts : list tok) := match ts with t :: _ => mul_of t | [] => None end.
Lemma mulr_stop a ts : head_mul ts = None -> Pmulr a ts a ts.
Proof. intros C. exists 1%nat. destruct ts as [|[] ts]; (reflexivity || discriminate C). Qed.
Lemma mulr_go a t o ts b r e r' : mul_of t = Some o -> Pun ts b r -> Pmulr (o a b) r e r' -> Pmulr a (t :: ts) e r'.
Proof.
  intros C H H'. exists (S (big ts + big r)). destruct t; try discriminate C; injection C as <-; rewrite p_mul_rest_S; rewrite (big_un _ _ _ H) by lia; apply (big_mulr _ _ _ _ H'); lia.
Qed.
Lemma un_minus ts a r : Pun ts a r -> Pun (TMinus :: ts) (ENeg a) r.
Proof. intros (n & H). exists (S n). rewrite p_un_S. rewrite H. reflexivity. Qed.
Definition head_pow (ts : list tok) : bool := match ts with TPow :: _ => true | _ => false end.
Lemma atom_not_minus n ts e r : p_atom v n ts = Some (e, r) -> match ts with TMinus :: _ => False | _ => True end.
Proof. destruct n; [discriminate|]. destruct ts as [|[] ts]; try exact (fun _ => I). discriminate. Qed.
Lemma un_eq k ts : match ts with TMinus :: _ => False | _ => True end ->
  p_un v (S k) ts = match p_atom v k ts with Some (a, TPow :: ts1) => match p_un v k ts1 with Some (b, ts2) => Some (EPow a b, ts2) | None => None end | r => r end.
Proof. destruct ts as [|[] ts]; intros F; (reflexivity || elim F). Qed.
Lemma un_atom ts a r : Patom ts a r -> head_pow r = false -> Pun ts a r.
Proof. intros (n & H) C. exists (S n). rewrite un_eq by (eapply atom_not_minus; exact H). rewrite H. destruct r as [|[] r]; (reflexivity || discriminate C). Qed.
Lemma un_pow ts a r b r' : Patom ts a (TPow :: r) -> Pun r b r' -> Pun ts (EPow a b) r'.
Proof.
  intros H H'. exists (S (big ts + big r)). rewrite un_eq by (destruct H as (n & H); eapply atom_not_minus; exact H).
  rewrite (big_atom _ _ _ H) by lia. rewrite (big_un _ _ _ H') by lia. reflexivity.
Qed.
Lemma atom_num q ts : Patom (TNum q :: ts) (ENum q) ts. Proof. exists 1%nat. reflexivity. Qed.
Definition head_lp (ts : list tok) : bool := match ts with TLp :: _ => true | _ => false end.
Lemma atom_var x ts : head_lp ts = false -> Patom (TId x :: ts) (mk_var v x) ts.
Proof. intros C. exists 1%nat. destruct ts as [|[] ts]; (reflexivity || discriminate C). Qed.
Lemma atom_call f ts args r e : Pargs ts args r -> mk_call v f args = Some e -> Patom (TId f :: TLp :: ts) e r.
Proof. intros (n & H) M. exists (S n). rewrite p_atom_S. rewrite H, M. reflexivity. Qed.
Lemma atom_paren ts a r : Pcmp ts a (TRp :: r) -> Patom (TLp :: ts) a r.
Proof. intros (n & H). exists (S n). rewrite p_atom_S. rewrite H. reflexivity. Qed.
Lemma args_one ts a r : Pcmp ts a (TRp :: r) -> Pargs ts [a] r.
Proof. intros (n & H). exists (S n). rewrite p_args_S. rewrite H. reflexivity. Qed.
Lemma args_more ts a r l r' : Pcmp ts a (TComma :: r) -> Pargs r l r' -> Pargs ts (a :: l) r'.
Proof. intros H H'. exists (S (big ts + big r)). rewrite p_args_S. rewrite (big_cmp _ _ _ H) by lia. rewrite (big_args _ _ _ H') by lia. reflexivity. Qed.
(** The fuel of [parse_line] is enough. *)
Lemma parse_line_iff s x e : parse_line v s = Some (x, e) <-> exists ts, lex (S (blen s)) s = Some (TId x :: TAssign :: ts) /\ Pcmp ts e [].
Proof.
  unfold parse_line. split.
  - destruct (lex (S (blen s)) s) as [l|]; [|discriminate]. destruct l as [|[] [|[] ts]]; try discriminate.
    destruct (p_cmp v (10 * length ts + 10) ts) as [[e' [|]]|] eqn:E; try discriminate. intros H. injection H as <- <-. exists ts. split; [reflexivity|]. eexists. exact E.
  - intros (ts & -> & P). rewrite (big_cmp _ _ _ P) by (unfold big; lia). reflexivity.
Qed.
End Fuel.
