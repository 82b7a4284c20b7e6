(** Which number a formula reads when it names an array element (C21). *)
From Coq Require Import Reals List Bool ZArith Arith Strings.Byte Lia.
From Verif Require Import Bytes Syntax Parser Src Semantics Impl ImplThm Records RecordsThm RecordsThm2 RecordsThm3.
Import ListNotations.
Local Open Scope nat_scope.

(** A decimal numeral. *)
Definition digit (k : nat) : bstr := nth k ["0"; "1"; "2"; "3"; "4"; "5"; "6"; "7"; "8"; "9"]%b bnil.
Inductive numeral : nat -> bstr -> Prop :=
| numeral_one k : k < 10 -> numeral k (digit k)
| numeral_more n d k : k < 10 -> numeral n d -> numeral (10 * n + k) (d +++ digit k).
(** The text [i][j]... behind the name of an array. *)
Inductive subscripts : list nat -> bstr -> Prop :=
| subscripts_none : subscripts [] bnil
| subscripts_one i ix d s : numeral i d -> subscripts ix s -> subscripts (i :: ix) ("[" +++ d +++ "]" +++ s).
(** An array of the given shape is cut into as many blocks as its first dimension says. *)
Definition size (shape : list nat) : nat := fold_right Nat.mul 1 shape.
Fixpoint element (shape ix : list nat) (data : list R) : option R :=
  match shape, ix with
  | [], [] => hd_error data
  | n :: shape, i :: ix => if i <? n then element shape ix (firstn (size shape) (skipn (i * size shape) data)) else None
  | _, _ => None
  end.

Lemma digits_app acc s t : nat_of_digits acc (s +++ t) = nat_of_digits (nat_of_digits acc s) t.
Proof. revert acc. induction s as [|b s IH]; intros acc; [reflexivity|]. cbn. apply IH. Qed.
Lemma digit_val_of k : k < 10 -> exists b, digit k = bcons b bnil /\ digit_val b = k /\ Byte.eqb b (ch "]") = false.
Proof. intros H. do 10 (destruct k as [|k]; [eexists; repeat split; reflexivity|]). lia. Qed.
Lemma numeral_value n d : numeral n d -> nat_of_digits 0 d = n.
Proof.
  induction 1 as [k H|n d k H _ IH].
  - destruct (digit_val_of k H) as (b & -> & E & _). cbn [nat_of_digits]. lia.
  - rewrite digits_app, IH. destruct (digit_val_of k H) as (b & -> & E & _). cbn [nat_of_digits]. lia.
Qed.
Lemma split_at_app c s t : all_bytes (fun b => negb (Byte.eqb b c)) s = true ->
  split_at c (s +++ t) = let '(x, r) := split_at c t in (s +++ x, r).
Proof.
  induction s as [|b s IH]; intros H; [cbn; destruct (split_at c t); reflexivity|]. cbn in H |- *.
  destruct (Byte.eqb b c); [discriminate|]. cbn in H. rewrite (IH H). destruct (split_at c t). reflexivity.
Qed.
Lemma numeral_plain n d : numeral n d -> all_bytes (fun b => negb (Byte.eqb b (ch "]"))) d = true.
Proof.
  assert (A : forall s t f, all_bytes f s = true -> all_bytes f t = true -> all_bytes f (s +++ t) = true).
  { induction s as [|b s IH]; intros t f H1 H2; [exact H2|]. cbn in H1 |- *. destruct (f b); [|discriminate]. cbn in H1. exact (IH _ _ H1 H2). }
  assert (D : forall k, k < 10 -> all_bytes (fun b => negb (Byte.eqb b (ch "]"))) (digit k) = true).
  { intros k H. destruct (digit_val_of k H) as (b & -> & _ & E). cbn. cbn in E. rewrite E. reflexivity. }
  induction 1; [apply D; assumption|apply A; [assumption|apply D; assumption]].
Qed.
Lemma indices_subscripts ix s : subscripts ix s -> forall fuel, length ix <= fuel ->
  match bstrip "[" s with Some t => indices fuel t | None => [] end = ix.
Proof.
  induction 1 as [|i ix d s N _ IH]; intros fuel F; [reflexivity|]. cbn [bapp bstrip]. rewrite byte_eqb_refl. cbn [bstrip].
  destruct fuel as [|fuel]; [cbn in F; lia|]. cbn [indices]. rewrite (split_at_app _ _ _ (numeral_plain _ _ N)). cbn [split_at].
  rewrite byte_eqb_refl. cbn [bapp]. rewrite bapp_nil_r, (numeral_value _ _ N). f_equal. apply IH. cbn [length] in F. lia.
Qed.
Lemma subscripts_length ix s : subscripts ix s -> length ix <= blen s.
Proof. induction 1; [cbn; lia|]. cbn [length bapp blen]. rewrite blen_app. cbn [bapp blen]. lia. Qed.
Lemma element_flat shape : forall ix acc data, length data = size shape ->
  match flat_index shape ix acc with
  | Some n => exists k, n = acc * size shape + k /\ k < size shape /\ element shape ix data = nth_error data k
  | None => element shape ix data = None
  end.
Proof.
  induction shape as [|n shape IH]; intros [|i ix] acc data L; cbn [flat_index element]; try reflexivity.
  - exists 0. cbn [size fold_right]. split; [lia|]. split; [lia|]. destruct data; reflexivity.
  - destruct (Nat.ltb_spec i n) as [H|H]; [|reflexivity].
    change (size (n :: shape)) with (n * size shape) in L |- *.
    assert (B : length (firstn (size shape) (skipn (i * size shape) data)) = size shape).
    { rewrite firstn_length, skipn_length, L. assert (i * size shape + size shape <= n * size shape) by nia. lia. }
    specialize (IH ix (acc * n + i) _ B). destruct (flat_index shape ix (acc * n + i)) as [m|]; [|exact IH].
    destruct IH as (k & -> & K & E). exists (i * size shape + k). split; [nia|]. split; [nia|].
    rewrite E. rewrite <- (firstn_skipn (i * size shape) data) at 2. rewrite nth_error_app2; rewrite firstn_length, L; [|lia].
    rewrite Nat.min_l by nia. replace (i * size shape + k - i * size shape) with k by lia.
    rewrite <- (firstn_skipn (size shape) (skipn (i * size shape) data)) at 2. rewrite nth_error_app1; [reflexivity|]. rewrite B. exact K.
Qed.
Theorem param_element fs base a ix s : all_bytes (fun b => negb (Byte.eqb b (ch "["))) base = true -> subscripts ix s ->
  dget fs base = Some (VArr a) -> length (a_data a) = size (a_shape a) -> param_of fs (base +++ s) = element (a_shape a) ix (a_data a).
Proof.
  intros B S D L. unfold param_of. rewrite (split_at_app _ _ _ B). pose proof (indices_subscripts _ _ S) as X.
  destruct S as [|i ix d s N S].
  - cbn [split_at]. rewrite bapp_nil_r, D. pose proof (element_flat (a_shape a) [] 0 _ L) as E.
    destruct (flat_index (a_shape a) [] 0); [|symmetry; exact E]. destruct E as (k & -> & _ & ->). reflexivity.
  - pose proof (subscripts_length _ _ S) as F.
    assert (Y : indices (blen (d +++ "]" +++ s)) (d +++ "]" +++ s) = i :: ix).
    { apply X. cbn [length]. rewrite blen_app. cbn [bapp blen]. lia. }
    cbn [bapp split_at]. rewrite byte_eqb_refl. cbn [bapp] in Y. rewrite bapp_nil_r, D.
    rewrite Y. pose proof (element_flat (a_shape a) (i :: ix) 0 _ L) as E.
    destruct (flat_index (a_shape a) (i :: ix) 0); [|symmetry; exact E]. destruct E as (k & -> & _ & ->). reflexivity.
Qed.
Theorem reads_element r p pr base a ix s : reads r p -> getattr r "params" = Some pr -> getattr pr base = Some (VArr a) ->
  length (a_data a) = size (a_shape a) -> all_bytes (fun b => negb (Byte.eqb b (ch "["))) base = true -> subscripts ix s ->
  fp_params p (base +++ s) = element (a_shape a) ix (a_data a).
Proof.
  intros R P G L B S. assert (E : exists n fs, pr = VRec n fs /\ forall y, fp_params p y = param_of fs y).
  { destruct R; match goal with X : getattr _ "params" = Some (VRec ?m ?l) |- _ => rewrite P in X; injection X as ->; eauto end. }
  destruct E as (n & fs & -> & E). rewrite E. apply param_element; try assumption.
Qed.
