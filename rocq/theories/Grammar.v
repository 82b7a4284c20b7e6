(** The expression grammar of the Python reference manual (sections 6.3 to 6.10), for the tokens that
    occur in the formulas, and the proof that the parser computes its trees. *)
From Coq Require Import Strings.Byte List Bool NArith ZArith QArith Lia.
From Verif Require Import Bytes Syntax Parser Literals LiteralsThm Tokens.
Import ListNotations.

Inductive level := Comparison | Sum | Product | Unary | Atom.
Section Grammar.
Variable v : vocabulary.
(** [tree l ts e]: the tokens [ts] are a phrase of level [l] and [e] is its tree. *)
Inductive tree : level -> list tok -> expr -> Prop :=
| t_le ts us a b : tree Sum ts a -> tree Sum us b -> tree Comparison (ts ++ TLe :: us) (ECmp CLe a b)
| t_lt ts us a b : tree Sum ts a -> tree Sum us b -> tree Comparison (ts ++ TLt :: us) (ECmp CLt a b)
| t_eq ts us a b : tree Sum ts a -> tree Sum us b -> tree Comparison (ts ++ TEqEq :: us) (ECmp CEq a b)
| t_sum ts a : tree Sum ts a -> tree Comparison ts a
| t_add ts us a b : tree Sum ts a -> tree Product us b -> tree Sum (ts ++ TPlus :: us) (EAdd a b)
| t_sub ts us a b : tree Sum ts a -> tree Product us b -> tree Sum (ts ++ TMinus :: us) (ESub a b)
| t_product ts a : tree Product ts a -> tree Sum ts a
| t_mul ts us a b : tree Product ts a -> tree Unary us b -> tree Product (ts ++ TStar :: us) (EMul a b)
| t_div ts us a b : tree Product ts a -> tree Unary us b -> tree Product (ts ++ TSlash :: us) (EDiv a b)
| t_unary ts a : tree Unary ts a -> tree Product ts a
| t_neg ts a : tree Unary ts a -> tree Unary (TMinus :: ts) (ENeg a)
| t_pow ts us a b : tree Atom ts a -> tree Unary us b -> tree Unary (ts ++ TPow :: us) (EPow a b)
| t_atom ts a : tree Atom ts a -> tree Unary ts a
| t_num q : tree Atom [TNum q] (ENum q)
| t_const x e : v_const v x = Some e -> tree Atom [TId x] e
| t_var x : v_const v x = None -> tree Atom [TId x] (EVar x)
| t_paren ts a : tree Comparison ts a -> tree Atom (TLp :: ts ++ [TRp]) a
| t_call1 f g ts a : v_prim v f = Some (P1 g) -> list_of ts [a] -> tree Atom (TId f :: TLp :: ts ++ [TRp]) (EFn1 g a)
| t_call2 f g ts a b : v_prim v f = Some (P2 g) -> list_of ts [a; b] -> tree Atom (TId f :: TLp :: ts ++ [TRp]) (EFn2 g a b)
| t_call3 f g ts a b c : v_prim v f = Some (P3 g) -> list_of ts [a; b; c] -> tree Atom (TId f :: TLp :: ts ++ [TRp]) (EFn3 g a b c)
| t_cond f ts a b c : v_prim v f = Some PCond -> list_of ts [a; b; c] -> tree Atom (TId f :: TLp :: ts ++ [TRp]) (ECond a b c)
| t_or f ts a b : v_prim v f = Some POr -> list_of ts [a; b] -> tree Atom (TId f :: TLp :: ts ++ [TRp]) (EOr a b)
| t_and f ts a b : v_prim v f = Some PAnd -> list_of ts [a; b] -> tree Atom (TId f :: TLp :: ts ++ [TRp]) (EAnd a b)
with list_of : list tok -> list expr -> Prop :=
| l_one ts a : tree Comparison ts a -> list_of ts [a]
| l_more ts us a l : tree Comparison ts a -> list_of us l -> list_of (ts ++ TComma :: us) (a :: l).
Scheme tree_mut := Minimality for tree Sort Prop with list_mut := Minimality for list_of Sort Prop.
Combined Scheme tree_list from tree_mut, list_mut.

Lemma call_tree f ts args e : list_of ts args -> mk_call v f args = Some e -> tree Atom (TId f :: TLp :: ts ++ [TRp]) e.
Proof.
  intros L M. unfold mk_call in M. destruct (v_prim v f) as [[g|g|g| | |]|] eqn:P; [..|discriminate];
    destruct args as [|a [|b [|c [|d r]]]]; try discriminate; injection M as <-; econstructor; eassumption.
Qed.

(** One step of each function of the parser. *)
Lemma p_cmp_S n ts : p_cmp v (S n) ts =
      match p_sum v n ts with
      | Some (a, TLe :: ts) =>
          match p_sum v n ts with Some (b, ts) => Some (ECmp CLe a b, ts) | None => None end
      | Some (a, TLt :: ts) =>
          match p_sum v n ts with Some (b, ts) => Some (ECmp CLt a b, ts) | None => None end
      | Some (a, TEqEq :: ts) =>
          match p_sum v n ts with Some (b, ts) => Some (ECmp CEq a b, ts) | None => None end
      | r => r
      end.
Proof. reflexivity. Qed.
Lemma p_sum_S n ts : p_sum v (S n) ts =
      match p_mul v n ts with
      | Some (a, ts) => p_sum_rest v n a ts
      | None => None
      end.
Proof. reflexivity. Qed.
Lemma p_sum_rest_S n a ts : p_sum_rest v (S n) a ts =
      match ts with
      | TPlus :: ts =>
          match p_mul v n ts with Some (b, ts) => p_sum_rest v n (EAdd a b) ts | None => None end
      | TMinus :: ts =>
          match p_mul v n ts with Some (b, ts) => p_sum_rest v n (ESub a b) ts | None => None end
      | _ => Some (a, ts)
      end.
Proof. reflexivity. Qed.
Lemma p_mul_S n ts : p_mul v (S n) ts =
      match p_un v n ts with
      | Some (a, ts) => p_mul_rest v n a ts
      | None => None
      end.
Proof. reflexivity. Qed.
Lemma p_mul_rest_S n a ts : p_mul_rest v (S n) a ts =
      match ts with
      | TStar :: ts =>
          match p_un v n ts with Some (b, ts) => p_mul_rest v n (EMul a b) ts | None => None end
      | TSlash :: ts =>
          match p_un v n ts with Some (b, ts) => p_mul_rest v n (EDiv a b) ts | None => None end
      | _ => Some (a, ts)
      end.
Proof. reflexivity. Qed.
Lemma p_un_S n ts : p_un v (S n) ts =
      match ts with
      | TMinus :: ts => match p_un v n ts with Some (a, ts) => Some (ENeg a, ts) | None => None end
      | _ =>
        match p_atom v n ts with
        | Some (a, TPow :: ts) =>
            match p_un v n ts with Some (b, ts) => Some (EPow a b, ts) | None => None end
        | r => r
        end
      end.
Proof. reflexivity. Qed.
Lemma p_atom_S n ts : p_atom v (S n) ts =
      match ts with
      | TNum q :: ts => Some (ENum q, ts)
      | TId f :: TLp :: ts =>
          match p_args v n ts with
          | Some (args, ts) =>
              match mk_call v f args with Some e => Some (e, ts) | None => None end
          | None => None
          end
      | TId x :: ts => Some (mk_var v x, ts)
      | TLp :: ts =>
          match p_cmp v n ts with
          | Some (a, TRp :: ts) => Some (a, ts)
          | _ => None
          end
      | _ => None
      end.
Proof. reflexivity. Qed.
Lemma p_args_S n ts : p_args v (S n) ts =
      match p_cmp v n ts with
      | Some (a, TRp :: ts) => Some ([a], ts)
      | Some (a, TComma :: ts) =>
          match p_args v n ts with Some (l, ts) => Some (a :: l, ts) | None => None end
      | _ => None
      end.
Proof. reflexivity. Qed.

(** ** What the parser returns is a tree of what it has read *)
Definition reads (l : level) (ts : list tok) (r : option (expr * list tok)) : Prop :=
  forall e rest, r = Some (e, rest) -> exists us, ts = us ++ rest /\ tree l us e.
Definition reads_after (l : level) (a : expr) (ts : list tok) (r : option (expr * list tok)) : Prop :=
  forall e rest pre, r = Some (e, rest) -> tree l pre a -> exists us, ts = us ++ rest /\ tree l (pre ++ us) e.
Definition reads_list (ts : list tok) (r : option (list expr * list tok)) : Prop :=
  forall e rest, r = Some (e, rest) -> exists us, ts = us ++ TRp :: rest /\ list_of us e.

Lemma parser_sound n :
  (forall ts, reads Comparison ts (p_cmp v n ts)) /\ (forall ts, reads Sum ts (p_sum v n ts)) /\
  (forall a ts, reads_after Sum a ts (p_sum_rest v n a ts)) /\ (forall ts, reads Product ts (p_mul v n ts)) /\
  (forall a ts, reads_after Product a ts (p_mul_rest v n a ts)) /\ (forall ts, reads Unary ts (p_un v n ts)) /\
  (forall ts, reads Atom ts (p_atom v n ts)) /\ (forall ts, reads_list ts (p_args v n ts)).
Proof.
  unfold reads, reads_after, reads_list.
  induction n as [|n (HC & HS & HSR & HM & HMR & HU & HA & HL)]; [refine (conj _ (conj _ (conj _ (conj _ (conj _ (conj _ (conj _ _))))))); intros; discriminate|].
  refine (conj _ (conj _ (conj _ (conj _ (conj _ (conj _ (conj _ _))))))).
  - intros ts e rest H. rewrite p_cmp_S in H. destruct (p_sum v n ts) as [[a [|t us]]|] eqn:E; [| |discriminate].
    + injection H as <- <-. destruct (HS _ _ _ E) as (w & -> & T). exists w. split; [reflexivity|apply t_sum, T].
    + destruct (HS _ _ _ E) as (w & -> & T).
      destruct t; try (injection H as <- <-; exists w; split; [reflexivity|apply t_sum, T]);
        (destruct (p_sum v n us) as [[b r]|] eqn:F; [|discriminate]; injection H as <- <-; destruct (HS _ _ _ F) as (w' & -> & T');
         eexists (w ++ _ :: w'); split; [rewrite <- app_assoc; reflexivity|constructor; assumption]).
  - intros ts e rest H. rewrite p_sum_S in H. destruct (p_mul v n ts) as [[a us]|] eqn:E; [|discriminate].
    destruct (HM _ _ _ E) as (w & -> & T). destruct (HSR _ _ _ _ w H (t_product _ _ T)) as (w' & -> & T').
    exists (w ++ w'). split; [apply app_assoc|exact T'].
  - intros a ts e rest pre H P. rewrite p_sum_rest_S in H.
    destruct ts as [|t ts]; [injection H as <- <-; exists []; split; [reflexivity|rewrite app_nil_r; exact P]|].
    destruct t; try (injection H as <- <-; exists []; split; [reflexivity|rewrite app_nil_r; exact P]);
      (destruct (p_mul v n ts) as [[b us]|] eqn:E; [|discriminate]; destruct (HM _ _ _ E) as (w & -> & T);
       first [destruct (HSR _ _ _ _ _ H (t_add _ _ _ _ P T)) as (w' & -> & T')|destruct (HSR _ _ _ _ _ H (t_sub _ _ _ _ P T)) as (w' & -> & T')];
       eexists (_ :: w ++ w'); split; [cbn [app]; rewrite app_assoc; reflexivity|rewrite <- app_assoc in T'; exact T']).
  - intros ts e rest H. rewrite p_mul_S in H. destruct (p_un v n ts) as [[a us]|] eqn:E; [|discriminate].
    destruct (HU _ _ _ E) as (w & -> & T). destruct (HMR _ _ _ _ w H (t_unary _ _ T)) as (w' & -> & T').
    exists (w ++ w'). split; [apply app_assoc|exact T'].
  - intros a ts e rest pre H P. rewrite p_mul_rest_S in H.
    destruct ts as [|t ts]; [injection H as <- <-; exists []; split; [reflexivity|rewrite app_nil_r; exact P]|].
    destruct t; try (injection H as <- <-; exists []; split; [reflexivity|rewrite app_nil_r; exact P]);
      (destruct (p_un v n ts) as [[b us]|] eqn:E; [|discriminate]; destruct (HU _ _ _ E) as (w & -> & T);
       first [destruct (HMR _ _ _ _ _ H (t_mul _ _ _ _ P T)) as (w' & -> & T')|destruct (HMR _ _ _ _ _ H (t_div _ _ _ _ P T)) as (w' & -> & T')];
       eexists (_ :: w ++ w'); split; [cbn [app]; rewrite app_assoc; reflexivity|rewrite <- app_assoc in T'; exact T']).
  - intros ts e rest H. rewrite p_un_S in H.
    assert (A : match p_atom v n ts with
        | Some (a, TPow :: ts) => match p_un v n ts with Some (b, ts) => Some (EPow a b, ts) | None => None end
        | r => r end = Some (e, rest) -> exists us, ts = us ++ rest /\ tree Unary us e).
    { clear H. intros H. destruct (p_atom v n ts) as [[a [|t us]]|] eqn:E; [| |discriminate].
      - injection H as <- <-. destruct (HA _ _ _ E) as (w & -> & T). exists w. split; [reflexivity|apply t_atom, T].
      - destruct (HA _ _ _ E) as (w & -> & T). destruct t; try (injection H as <- <-; exists w; split; [reflexivity|apply t_atom, T]).
        destruct (p_un v n us) as [[b r]|] eqn:F; [|discriminate]. injection H as <- <-. destruct (HU _ _ _ F) as (w' & -> & T').
        exists (w ++ TPow :: w'). split; [rewrite <- app_assoc; reflexivity|constructor; assumption]. }
    destruct ts as [|t ts]; [apply A, H|]. destruct t; try (apply A, H).
    destruct (p_un v n ts) as [[b r]|] eqn:F; [|discriminate]. injection H as <- <-. destruct (HU _ _ _ F) as (w' & -> & T').
    exists (TMinus :: w'). split; [reflexivity|constructor; exact T'].
  - intros ts e rest H. rewrite p_atom_S in H. destruct ts as [|t ts]; [discriminate|]. destruct t; try discriminate.
    + injection H as <- <-. exists [TNum q]. split; [reflexivity|constructor].
    + assert (V : Some (mk_var v s, ts) = Some (e, rest) -> exists us, TId s :: ts = us ++ rest /\ tree Atom us e).
      { clear H. intros H. injection H as <- <-. exists [TId s]. split; [reflexivity|]. unfold mk_var. destruct (v_const v s) eqn:C; constructor; exact C. }
      destruct ts as [|t ts]; [apply V, H|]. destruct t; try (apply V, H).
      destruct (p_args v n ts) as [[args us]|] eqn:E; [|discriminate]. destruct (mk_call v s args) as [c|] eqn:K; [|discriminate].
      injection H as <- <-. destruct (HL _ _ _ E) as (w & -> & T). exists (TId s :: TLp :: w ++ [TRp]).
      split; [cbn [app]; rewrite <- app_assoc; reflexivity|]. eapply call_tree; eassumption.
    + destruct (p_cmp v n ts) as [[a [|t us]]|] eqn:E; [discriminate| |discriminate]. destruct t; try discriminate.
      injection H as <- <-. destruct (HC _ _ _ E) as (w & -> & T). exists (TLp :: w ++ [TRp]).
      split; [cbn [app]; rewrite <- app_assoc; reflexivity|constructor; exact T].
  - intros ts e rest H. rewrite p_args_S in H. destruct (p_cmp v n ts) as [[a [|t us]]|] eqn:E; [discriminate| |discriminate].
    destruct (HC _ _ _ E) as (w & -> & T). destruct t; try discriminate.
    + injection H as <- <-. exists w. split; [reflexivity|constructor; exact T].
    + destruct (p_args v n us) as [[l r]|] eqn:F; [|discriminate]. injection H as <- <-. destruct (HL _ _ _ F) as (w' & -> & T').
      exists (w ++ TComma :: w'). split; [rewrite <- app_assoc; reflexivity|constructor; assumption].
Qed.

(** ** Every tree is found *)
Definition stops (l : level) (rest : list tok) : Prop :=
  match rest, l with
  | [], _ => True
  | TLp :: _, _ => False
  | TPow :: _, Atom => True
  | TPow :: _, _ => False
  | (TStar | TSlash) :: _, (Atom | Unary) => True
  | (TStar | TSlash) :: _, _ => False
  | (TPlus | TMinus) :: _, (Atom | Unary | Product) => True
  | (TPlus | TMinus) :: _, _ => False
  | (TLe | TLt | TEqEq) :: _, Comparison => False
  | _, _ => True
  end.
Lemma stops_mono l m rest : stops l rest ->
  match m, l with
  | _, Comparison | Atom, _ => True
  | Comparison, _ => False | Sum, Sum => True | Sum, _ => False
  | Product, (Sum | Product) => True | Product, _ => False | Unary, Atom => False | Unary, _ => True
  end -> stops m rest.
Proof. destruct rest as [|t rest]; [trivial|]. destruct t, l, m; cbn; trivial; tauto. Qed.
Definition found (l : level) (ts : list tok) (e : expr) : Prop :=
  (1 <= length ts)%nat /\
  match l with
  | Comparison => forall n rest, (6 * length ts <= n + 1)%nat -> stops Comparison rest -> p_cmp v n (ts ++ rest) = Some (e, rest)
  | Sum => exists k, (1 <= k <= length ts)%nat /\ forall n rest, (6 * length ts <= n + 2)%nat -> stops Product rest -> p_sum v n (ts ++ rest) = p_sum_rest v (n - k) e rest
  | Product => exists k, (1 <= k <= length ts)%nat /\ forall n rest, (6 * length ts <= n + 3)%nat -> stops Unary rest -> p_mul v n (ts ++ rest) = p_mul_rest v (n - k) e rest
  | Unary => forall n rest, (6 * length ts <= n + 4)%nat -> stops Unary rest -> p_un v n (ts ++ rest) = Some (e, rest)
  | Atom => forall n rest, (6 * length ts <= n + 5)%nat -> stops Atom rest -> p_atom v n (ts ++ rest) = Some (e, rest)
  end.
Definition found_list (ts : list tok) (l : list expr) : Prop :=
  (1 <= length ts)%nat /\ forall n rest, (6 * length ts <= n)%nat -> p_args v n (ts ++ TRp :: rest) = Some (l, rest).
Lemma sum_done ts e n rest : found Sum ts e -> (6 * length ts <= n + 2)%nat -> stops Sum rest -> p_sum v n (ts ++ rest) = Some (e, rest).
Proof.
  intros (L & k & K & H) N S. rewrite H; [|exact N|apply (stops_mono Sum); [exact S|exact I]].
  destruct (n - k)%nat as [|m] eqn:E; [lia|]. rewrite p_sum_rest_S. destruct rest as [|t rest]; [reflexivity|]. destruct t; cbn in S; reflexivity || destruct S.
Qed.
Lemma product_done ts e n rest : found Product ts e -> (6 * length ts <= n + 3)%nat -> stops Product rest -> p_mul v n (ts ++ rest) = Some (e, rest).
Proof.
  intros (L & k & K & H) N S. rewrite H; [|exact N|apply (stops_mono Product); [exact S|exact I]].
  destruct (n - k)%nat as [|m] eqn:E; [lia|]. rewrite p_mul_rest_S. destruct rest as [|t rest]; [reflexivity|]. destruct t; cbn in S; reflexivity || destruct S.
Qed.
Lemma call_found f ts args e : mk_call v f args = Some e -> found_list ts args -> found Atom (TId f :: TLp :: ts ++ [TRp]) e.
Proof.
  intros M (L & H). split; [cbn; lia|]. intros n rest N S. cbn [length] in N. rewrite app_length in N. cbn [length] in N.
  destruct n as [|n]; [lia|]. rewrite p_atom_S; cbn [app]. rewrite <- app_assoc. cbn [app]. rewrite H by lia. rewrite M. reflexivity.
Qed.
Ltac len := cbn [length] in *; repeat rewrite app_length in *; cbn [length] in *.
Lemma parser_complete : (forall l ts e, tree l ts e -> found l ts e) /\ (forall ts l, list_of ts l -> found_list ts l).
Proof.
  apply tree_list.
  1-3: (intros ts us a b _ A _ B; pose proof (proj1 A) as LA; pose proof (proj1 B) as LB; split; [len; lia|]; intros n rest N S; len;
    destruct n as [|n]; [lia|]; rewrite p_cmp_S; rewrite <- app_assoc; cbn [app]; rewrite (sum_done _ _ _ _ A) by (lia || exact I);
    rewrite (sum_done _ _ _ _ B); [reflexivity|lia|apply (stops_mono Comparison); [exact S|exact I]]).
  - intros ts a _ A. pose proof (proj1 A) as LA. split; [exact LA|]. intros n rest N S. destruct n as [|n]; [lia|]. rewrite p_cmp_S.
    rewrite (sum_done _ _ _ _ A); [|lia|apply (stops_mono Comparison); [exact S|exact I]]. destruct rest as [|t rest]; [reflexivity|]. destruct t; cbn in S; reflexivity || destruct S.
  - intros ts us a b _ (LA & k & K & A) _ B. pose proof (proj1 B) as LB. split; [len; lia|]. exists (S k). split; [len; lia|]. intros n rest N S. len.
    rewrite <- app_assoc. cbn [app]. rewrite A by (lia || exact I). destruct (n - k)%nat as [|m] eqn:E; [lia|]. rewrite p_sum_rest_S.
    rewrite (product_done _ _ _ _ B) by (lia || exact S). f_equal. lia.
  - intros ts us a b _ (LA & k & K & A) _ B. pose proof (proj1 B) as LB. split; [len; lia|]. exists (S k). split; [len; lia|]. intros n rest N S. len.
    rewrite <- app_assoc. cbn [app]. rewrite A by (lia || exact I). destruct (n - k)%nat as [|m] eqn:E; [lia|]. rewrite p_sum_rest_S.
    rewrite (product_done _ _ _ _ B) by (lia || exact S). f_equal. lia.
  - intros ts a _ A. pose proof (proj1 A) as LA. split; [exact LA|]. exists 1%nat. split; [lia|]. intros n rest N S. destruct n as [|n]; [lia|]. rewrite p_sum_S.
    rewrite (product_done _ _ _ _ A) by (lia || exact S). f_equal. lia.
  - intros ts us a b _ (LA & k & K & A) _ (LB & B). split; [len; lia|]. exists (S k). split; [len; lia|]. intros n rest N S. len.
    rewrite <- app_assoc. cbn [app]. rewrite A by (lia || exact I). destruct (n - k)%nat as [|m] eqn:E; [lia|]. rewrite p_mul_rest_S.
    rewrite B by (lia || exact S). f_equal. lia.
  - intros ts us a b _ (LA & k & K & A) _ (LB & B). split; [len; lia|]. exists (S k). split; [len; lia|]. intros n rest N S. len.
    rewrite <- app_assoc. cbn [app]. rewrite A by (lia || exact I). destruct (n - k)%nat as [|m] eqn:E; [lia|]. rewrite p_mul_rest_S.
    rewrite B by (lia || exact S). f_equal. lia.
  - intros ts a _ (LA & A). split; [exact LA|]. exists 1%nat. split; [lia|]. intros n rest N S. destruct n as [|n]; [lia|]. rewrite p_mul_S.
    rewrite A by (lia || exact S). f_equal. lia.
  - intros ts a _ (LA & A). split; [len; lia|]. intros n rest N S. len. destruct n as [|n]; [lia|]. rewrite p_un_S; cbn [app]. rewrite A by (lia || exact S). reflexivity.
  - intros ts us a b T (LA & A) _ (LB & B). split; [len; lia|]. intros n rest N S. len. destruct n as [|n]; [lia|]. rewrite <- app_assoc. cbn [app].
    specialize (A n (TPow :: us ++ rest) ltac:(lia) I). specialize (B n rest ltac:(lia) S).
    rewrite p_un_S. destruct ts as [|t ts]; [cbn in LA; lia|]. cbn [app] in *. rewrite A, B. destruct t; try reflexivity. inversion T.
  - intros ts a T (LA & A). split; [exact LA|]. intros n rest N S. destruct n as [|n]; [lia|].
    specialize (A n rest ltac:(lia) (stops_mono Unary Atom rest S I)).
    rewrite p_un_S. destruct ts as [|t ts]; [cbn in LA; lia|]. cbn [app] in *. rewrite A.
    destruct rest as [|u rest]; [|destruct u; cbn in S; try destruct S]; (destruct t; try reflexivity; inversion T).
  - intros q. split; [cbn; lia|]. intros n rest N S. destruct n as [|n]; [cbn in N; lia|]. reflexivity.
  - intros x e C. split; [cbn; lia|]. intros n rest N S. destruct n as [|n]; [cbn in N; lia|]. rewrite p_atom_S; cbn [app]. unfold mk_var. rewrite C.
    destruct rest as [|t rest]; [reflexivity|]. destruct t; cbn in S; reflexivity || destruct S.
  - intros x C. split; [cbn; lia|]. intros n rest N S. destruct n as [|n]; [cbn in N; lia|]. rewrite p_atom_S; cbn [app]. unfold mk_var. rewrite C.
    destruct rest as [|t rest]; [reflexivity|]. destruct t; cbn in S; reflexivity || destruct S.
  - intros ts a _ (LA & A). split; [len; lia|]. intros n rest N S. len. destruct n as [|n]; [lia|]. rewrite p_atom_S; cbn [app]. rewrite <- app_assoc. cbn [app].
    rewrite A by (lia || exact I). reflexivity.
  - intros f g ts a P _ H. apply (call_found f ts [a]); [unfold mk_call; rewrite P; reflexivity|exact H].
  - intros f g ts a b P _ H. apply (call_found f ts [a; b]); [unfold mk_call; rewrite P; reflexivity|exact H].
  - intros f g ts a b c P _ H. apply (call_found f ts [a; b; c]); [unfold mk_call; rewrite P; reflexivity|exact H].
  - intros f ts a b c P _ H. apply (call_found f ts [a; b; c]); [unfold mk_call; rewrite P; reflexivity|exact H].
  - intros f ts a b P _ H. apply (call_found f ts [a; b]); [unfold mk_call; rewrite P; reflexivity|exact H].
  - intros f ts a b P _ H. apply (call_found f ts [a; b]); [unfold mk_call; rewrite P; reflexivity|exact H].
  - intros ts a _ (LA & A). split; [exact LA|]. intros n rest N. destruct n as [|n]; [lia|]. rewrite p_args_S. rewrite A by (lia || exact I). reflexivity.
  - intros ts us a l _ (LA & A) _ (LB & B). split; [len; lia|]. intros n rest N. len. destruct n as [|n]; [lia|]. rewrite p_args_S. rewrite <- app_assoc. cbn [app].
    rewrite A by (lia || exact I). rewrite B by lia. reflexivity.
Qed.
Lemma tree_unique ts a b : tree Comparison ts a -> tree Comparison ts b -> a = b.
Proof.
  intros A B. apply (proj1 parser_complete) in A, B. destruct A as [_ A], B as [_ B].
  specialize (A (6 * length ts)%nat [] ltac:(lia) I). specialize (B (6 * length ts)%nat [] ltac:(lia) I). congruence.
Qed.
Lemma parse_line_tree s x e : parse_line v s = Some (x, e) <->
  exists ts, lex (S (blen s)) s = Some (TId x :: TAssign :: ts) /\ tree Comparison ts e.
Proof.
  unfold parse_line. split.
  - destruct (lex (S (blen s)) s) as [[|t [|u ts]]|]; try discriminate; destruct t; try discriminate. destruct u; try discriminate.
    intros H. exists ts. destruct (p_cmp v (10 * length ts + 10) ts) as [[a [|r rest]]|] eqn:E; try discriminate. injection H as <- <-.
    split; [reflexivity|]. destruct (proj1 (parser_sound _) _ _ _ E) as (us & -> & T). rewrite app_nil_r. exact T.
  - intros (ts & -> & T). apply (proj1 parser_complete) in T. destruct T as [_ T]. specialize (T (10 * length ts + 10)%nat [] ltac:(lia) I).
    rewrite app_nil_r in T. rewrite T. reflexivity.
Qed.
(** A line [x = phrase], and a text of such lines. *)
Definition line (s : bstr) (st : stmt) : Prop := exists ts, tokenised s (TId (fst st) :: TAssign :: ts) /\ tree Comparison ts (snd st).
Lemma parse_line_iff s x e : parse_line v s = Some (x, e) <-> line s (x, e).
Proof.
  rewrite parse_line_tree. unfold line. cbn [fst snd]. split; intros (ts & A & T); exists ts; (split; [|exact T]); apply tokens_iff, A.
Qed.
Lemma parse_lines l p : parse v l = Some p <-> Forall2 line l p.
Proof.
  revert p. induction l as [|s l IH]; intros p; cbn [parse]; split.
  - intros H. injection H as <-. constructor.
  - intros H. inversion H. reflexivity.
  - destruct (parse_line v s) as [[x e]|] eqn:E; [|discriminate]. destruct (parse v l) as [q|] eqn:F; [|discriminate].
    intros H. injection H as <-. constructor; [apply parse_line_iff, E|apply IH; reflexivity].
  - intros H. inversion H as [|? [x e] ? q A B]; subst. apply parse_line_iff in A. apply IH in B. rewrite A, B. reflexivity.
Qed.
End Grammar.
