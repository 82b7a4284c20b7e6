(** Byte strings.  Source text of the repository is represented verbatim as
    values of [bstr]; a string literal ["..."%b] is exactly its bytes. *)
From Coq Require Import Strings.Byte List Bool NArith PArith Lia.
Import ListNotations.

Inductive bstr := bnil | bcons (b : byte) (s : bstr).

Fixpoint of_bytes (l : list byte) : bstr :=
  match l with nil => bnil | cons b l => bcons b (of_bytes l) end.
Fixpoint to_bytes (s : bstr) : list byte :=
  match s with bnil => nil | bcons b s => cons b (to_bytes s) end.

Declare Scope bstr_scope.
Delimit Scope bstr_scope with b.
String Notation bstr of_bytes to_bytes : bstr_scope.
Bind Scope bstr_scope with bstr.

(** The byte of a one-character literal. *)
Definition ch (s : bstr) : byte := match s with bcons b _ => b | bnil => x00 end.
Arguments ch s%b.

Fixpoint bapp (s t : bstr) : bstr :=
  match s with bnil => t | bcons b s => bcons b (bapp s t) end.
Infix "+++" := bapp (at level 60, right associativity).

Fixpoint blen (s : bstr) : nat := match s with bnil => 0 | bcons _ s => S (blen s) end.

Fixpoint brev_app (s acc : bstr) : bstr :=
  match s with bnil => acc | bcons b s => brev_app s (bcons b acc) end.
Definition brev (s : bstr) := brev_app s bnil.

Fixpoint bconcat (l : list bstr) : bstr :=
  match l with [] => bnil | s :: l => s +++ bconcat l end.

Fixpoint beqb (s t : bstr) : bool :=
  match s, t with
  | bnil, bnil => true
  | bcons a s, bcons b t => if Byte.eqb a b then beqb s t else false
  | _, _ => false
  end.

Lemma byte_eqb_eq a b : Byte.eqb a b = true <-> a = b.
Proof.
  split.
  - apply Byte.byte_dec_bl.
  - apply Byte.byte_dec_lb.
Qed.

Lemma byte_eqb_refl a : Byte.eqb a a = true.
Proof. apply byte_eqb_eq; reflexivity. Qed.

Lemma beqb_eq s t : beqb s t = true <-> s = t.
Proof.
  revert t; induction s as [|a s IH]; intros [|b t]; simpl; split; intros H; try congruence.
  - destruct (Byte.eqb a b) eqn:E; [|discriminate].
    apply byte_eqb_eq in E. apply IH in H. congruence.
  - injection H as -> ->. rewrite byte_eqb_refl. apply IH; reflexivity.
Qed.

Lemma beqb_refl s : beqb s s = true.
Proof. apply beqb_eq; reflexivity. Qed.

Lemma beqb_neq s t : beqb s t = false <-> s <> t.
Proof.
  split; intros H.
  - intros E. apply beqb_eq in E. congruence.
  - destruct (beqb s t) eqn:E; [|reflexivity]. apply beqb_eq in E. contradiction.
Qed.

Definition byte_dec : forall a b : byte, {a = b} + {a <> b} := Byte.byte_eq_dec.
Definition bstr_dec (s t : bstr) : {s = t} + {s <> t}.
Proof.
  destruct (beqb s t) eqn:E.
  - left. apply beqb_eq; exact E.
  - right. apply beqb_neq; exact E.
Defined.

Lemma bapp_nil_r s : s +++ bnil = s.
Proof. induction s as [|b s IH]; simpl; congruence. Qed.
Lemma bapp_assoc s t u : (s +++ t) +++ u = s +++ (t +++ u).
Proof. induction s as [|b s IH]; simpl; congruence. Qed.
Lemma blen_app s t : blen (s +++ t) = blen s + blen t.
Proof. induction s as [|b s IH]; simpl; congruence. Qed.
Lemma bapp_inj_l s t u : s +++ t = s +++ u -> t = u.
Proof. induction s as [|b s IH]; simpl; intros H; [exact H|]. injection H as H. apply IH, H. Qed.

(** Drop a literal prefix. *)
Fixpoint bstrip (p s : bstr) : option bstr :=
  match p, s with
  | bnil, _ => Some s
  | bcons a p, bcons b s => if Byte.eqb a b then bstrip p s else None
  | bcons _ _, bnil => None
  end.
Lemma bstrip_app p s t : bstrip p s = Some t <-> s = p +++ t.
Proof.
  revert s; induction p as [|a p IH]; intros s; simpl.
  - split; intros H; congruence.
  - destruct s as [|b s]; [split; intros; discriminate|].
    destruct (Byte.eqb a b) eqn:E.
    + apply byte_eqb_eq in E; subst b. rewrite IH. split; intros H; congruence.
    + split; intros H; [discriminate|]. injection H as -> ->.
      rewrite byte_eqb_refl in E; discriminate.
Qed.
Definition bprefix (p s : bstr) : bool := match bstrip p s with Some _ => true | None => false end.

(** Character classes. *)
Definition code (b : byte) : N := Byte.to_N b.
Definition between (lo hi : N) (b : byte) : bool := (N.leb lo (code b) && N.leb (code b) hi)%bool.
Definition is_digit (b : byte) : bool :=
  match b with
  | "0" | "1" | "2" | "3" | "4" | "5" | "6" | "7" | "8" | "9" => true
  | _ => false
  end%byte.
Definition is_alpha (b : byte) : bool :=
  match b with
  | "A" | "B" | "C" | "D" | "E" | "F" | "G" | "H" | "I" | "J" | "K" | "L" | "M" | "N" |
      "O" | "P" | "Q" | "R" | "S" | "T" | "U" | "V" | "W" | "X" | "Y" | "Z" | "a" | "b" |
      "c" | "d" | "e" | "f" | "g" | "h" | "i" | "j" | "k" | "l" | "m" | "n" | "o" | "p" |
      "q" | "r" | "s" | "t" | "u" | "v" | "w" | "x" | "y" | "z" | "_" => true
  | _ => false
  end%byte.
Definition is_word (b : byte) : bool :=
  match b with
  | "A" | "B" | "C" | "D" | "E" | "F" | "G" | "H" | "I" | "J" | "K" | "L" | "M" | "N" |
      "O" | "P" | "Q" | "R" | "S" | "T" | "U" | "V" | "W" | "X" | "Y" | "Z" | "a" | "b" |
      "c" | "d" | "e" | "f" | "g" | "h" | "i" | "j" | "k" | "l" | "m" | "n" | "o" | "p" |
      "q" | "r" | "s" | "t" | "u" | "v" | "w" | "x" | "y" | "z" | "_" | "0" | "1" | "2" |
      "3" | "4" | "5" | "6" | "7" | "8" | "9" => true
  | _ => false
  end%byte.
Definition is_space (b : byte) : bool :=
  match b with " " | x09 | x0a | x0b | x0c | x0d => true | _ => false end%byte.
Lemma is_digit_spec b : is_digit b = between 48 57 b.
Proof. destruct b; reflexivity. Qed.
Lemma is_word_spec b : is_word b = (is_alpha b || is_digit b)%bool.
Proof. destruct b; reflexivity. Qed.
Lemma is_alpha_spec b : is_alpha b = (between 65 90 b || between 97 122 b || Byte.eqb b "_")%bool.
Proof. destruct b; reflexivity. Qed.
Lemma is_space_spec b : is_space b = (Byte.eqb b " " || between 9 13 b)%bool.
Proof. destruct b; reflexivity. Qed.

(** Injective encoding of names as positives, to key [PositiveMap]s. *)
Definition push (b : bool) (p : positive) : positive := if b then xI p else xO p.
Definition push_byte (b : byte) (p : positive) : positive :=
  let '(b0, (b1, (b2, (b3, (b4, (b5, (b6, b7))))))) := Byte.to_bits b in
  push b0 (push b1 (push b2 (push b3 (push b4 (push b5 (push b6 (push b7 p))))))).
Fixpoint enc (s : bstr) : positive :=
  match s with bnil => xH | bcons b s => push_byte b (enc s) end.

Lemma push_inj a b p q : push a p = push b q -> a = b /\ p = q.
Proof. destruct a, b; simpl; intros H; try discriminate; injection H as ->; auto. Qed.
Lemma push_not_1 a p : push a p <> xH.
Proof. destruct a; discriminate. Qed.
Lemma push_byte_inj a b p q : push_byte a p = push_byte b q -> a = b /\ p = q.
Proof.
  unfold push_byte. intros H.
  assert (E : Byte.to_bits a = Byte.to_bits b /\ p = q).
  { destruct (Byte.to_bits a) as (a0&a1&a2&a3&a4&a5&a6&a7).
    destruct (Byte.to_bits b) as (b0&b1&b2&b3&b4&b5&b6&b7).
    repeat match goal with H : push _ _ = push _ _ |- _ => apply push_inj in H; destruct H as [? H] end.
    subst. auto. }
  destruct E as [E ->]. split; [|reflexivity].
  rewrite <- (Byte.of_bits_to_bits a), <- (Byte.of_bits_to_bits b). congruence.
Qed.
Lemma push_byte_not_1 a p : push_byte a p <> xH.
Proof.
  unfold push_byte. destruct (Byte.to_bits a) as (a0&a1&a2&a3&a4&a5&a6&a7). apply push_not_1.
Qed.
Lemma enc_inj s t : enc s = enc t -> s = t.
Proof.
  revert t; induction s as [|a s IH]; intros [|b t]; simpl; intros H.
  - reflexivity.
  - symmetry in H. apply push_byte_not_1 in H. contradiction.
  - apply push_byte_not_1 in H. contradiction.
  - apply push_byte_inj in H. destruct H as [-> H]. f_equal. apply IH, H.
Qed.
