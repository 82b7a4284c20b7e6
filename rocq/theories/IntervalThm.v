(** Soundness of the interval operations of Interval.v. *)
From Coq Require Import Reals ZArith QArith Qreals Bool List Lra Lia.
From Verif Require Import Interval.
Open Scope R_scope.

Section Precision.
Context {prc : setting}.

Definition p2 (e : Z) : R := powerRZ 2 e.
Definition D2R (a : dy) : R := match a with D m e => IZR m * p2 e end.

Lemma p2_pos e : 0 < p2 e.
Proof. apply powerRZ_lt. lra. Qed.
Lemma p2_add a b : p2 (a + b) = p2 a * p2 b.
Proof. apply powerRZ_add. lra. Qed.
Lemma p2_0 : p2 0 = 1. Proof. reflexivity. Qed.
Lemma p2_Z e : (0 <= e)%Z -> p2 e = IZR (2 ^ e).
Proof.
  intros H. unfold p2. rewrite <- (Z2Nat.id e H). rewrite <- pow_powerRZ, <- pow_IZR. reflexivity.
Qed.
Lemma p2_opp e : p2 (- e) * p2 e = 1.
Proof. rewrite <- p2_add. replace (- e + e)%Z with 0%Z by lia. reflexivity. Qed.
Lemma p2_sub a b : p2 (a - b) * p2 b = p2 a.
Proof. rewrite <- p2_add. f_equal. lia. Qed.
Lemma D2R_zero : D2R zero = 0. Proof. unfold D2R, zero. lra. Qed.
Lemma D2R_one : D2R one = 1. Proof. unfold D2R, one. rewrite p2_0. lra. Qed.
Lemma D2R_int m : D2R (D m 0) = IZR m. Proof. unfold D2R. rewrite p2_0. lra. Qed.

Lemma dneg_R a : D2R (dneg a) = - D2R a.
Proof. destruct a as [m e]. cbn. rewrite opp_IZR. lra. Qed.
Lemma rdn_le a : D2R (rdn a) <= D2R a.
Proof.
  destruct a as [m e]. unfold rdn. destruct (_ <=? _)%Z eqn:E; [lra|]. apply Z.leb_gt in E.
  set (k := (Z.log2 (Z.abs m) - prec)%Z) in *. assert (0 <= k)%Z by (unfold k; lia).
  unfold D2R. rewrite Z.shiftr_div_pow2, p2_add by assumption.
  rewrite (Rmult_comm (p2 e)), <- Rmult_assoc, (p2_Z k), <- mult_IZR by assumption.
  apply Rmult_le_compat_r; [left; apply p2_pos|]. apply IZR_le.
  rewrite Z.mul_comm. apply Z.mul_div_le. apply Z.pow_pos_nonneg; lia.
Qed.
Lemma rup_ge a : D2R a <= D2R (rup a).
Proof. unfold rup. rewrite dneg_R. pose proof (rdn_le (dneg a)) as H. rewrite dneg_R in H. lra. Qed.
Lemma shl_shiftl m k : shl m k = Z.shiftl m k.
Proof.
  destruct k as [|n|n]; try reflexivity. unfold shl, Z.shiftl.
  destruct m as [|p|p].
  - symmetry. apply (Pos.iter_invariant n Z (Z.mul 2) (fun x => x = 0%Z)); [intros x ->; reflexivity|reflexivity].
  - apply (Pos.iter_swap_gen positive Z Zpos xO (Z.mul 2)). reflexivity.
  - apply (Pos.iter_swap_gen positive Z Zneg xO (Z.mul 2)). reflexivity.
Qed.
Lemma shiftl_R m k e : (0 <= k)%Z -> IZR (shl m k) * p2 e = IZR m * p2 (e + k).
Proof.
  intros H. rewrite shl_shiftl, Z.shiftl_mul_pow2, mult_IZR, <- p2_Z, p2_add by assumption. ring.
Qed.
Lemma dadd_R a b : D2R (dadd a b) = D2R a + D2R b.
Proof.
  destruct a as [m1 e1], b as [m2 e2]. unfold dadd. destruct (e1 <=? e2)%Z eqn:E; unfold D2R; rewrite plus_IZR, Rmult_plus_distr_r.
  - apply Z.leb_le in E. rewrite shiftl_R by lia. do 3 f_equal. lia.
  - apply Z.leb_gt in E. rewrite shiftl_R by lia. do 3 f_equal. lia.
Qed.
Lemma dmul_R a b : D2R (dmul a b) = D2R a * D2R b.
Proof. destruct a, b. cbn. rewrite mult_IZR, p2_add. ring. Qed.
Lemma dsgn_R a : match dsgn a with Lt => D2R a < 0 | Eq => D2R a = 0 | Gt => 0 < D2R a end.
Proof.
  destruct a as [m e]. cbn. pose proof (p2_pos e). destruct (Z.compare_spec m 0) as [E|E|E].
  - subst m. ring.
  - apply IZR_lt in E. nra.
  - apply IZR_lt in E. nra.
Qed.
Lemma dcmp_R a b : match dcmp a b with Lt => D2R a < D2R b | Eq => D2R a = D2R b | Gt => D2R b < D2R a end.
Proof.
  pose proof (dsgn_R a) as Ha. pose proof (dsgn_R b) as Hb. pose proof (dsgn_R (dadd a (dneg b))) as Hs.
  rewrite dadd_R, dneg_R in Hs. destruct a as [m1 e1], b as [m2 e2].
  unfold dcmp. cbn [dsgn] in Ha, Hb.
  destruct (m1 ?= 0)%Z, (m2 ?= 0)%Z; try lra; destruct (dsgn _); lra.
Qed.
Lemma zdiv_dn_le m n e : D2R (zdiv_dn m n e) <= IZR m / IZR (Zpos n) * p2 e.
Proof.
  unfold zdiv_dn.
  assert (G : forall k, (0 <= k)%Z -> D2R (rdn (D (shl m k / Zpos n) (e - k))) <= IZR m / IZR (Zpos n) * p2 e).
  { intros k Hk. eapply Rle_trans; [apply rdn_le|]. unfold D2R.
    assert (Hn : 0 < IZR (Zpos n)) by (apply IZR_lt; reflexivity).
    assert (E : IZR m * p2 e = IZR (shl m k) * p2 (e - k)).
    { rewrite shiftl_R by assumption. do 2 f_equal. lia. }
    unfold Rdiv. rewrite (Rmult_comm (IZR m)), Rmult_assoc, E, <- Rmult_assoc.
    apply Rmult_le_compat_r; [left; apply p2_pos|].
    apply (Rmult_le_reg_l (IZR (Zpos n))); [exact Hn|].
    rewrite <- Rmult_assoc, Rinv_r, Rmult_1_l, <- mult_IZR by lra. apply IZR_le. apply Z.mul_div_le. reflexivity. }
  destruct n; try (apply G; apply Z.le_max_l).
  eapply Rle_trans; [apply rdn_le|]. unfold D2R. change (IZR 1) with 1. lra.
Qed.
Lemma dinv_dn_le b : 0 < D2R b -> D2R (dinv_dn b) <= / D2R b.
Proof.
  destruct b as [[|n|n] e]; intros H; unfold dinv_dn.
  - cbn in H. lra.
  - eapply Rle_trans; [apply zdiv_dn_le|]. unfold D2R. pose proof (p2_opp e) as P. pose proof (p2_pos e).
    assert (Hn : 0 < IZR (Zpos n)) by (apply IZR_lt; reflexivity).
    rewrite Rinv_mult. replace (p2 (- e)) with (/ p2 e); [lra|].
    apply (Rmult_eq_reg_r (p2 e)); [|lra]. rewrite P. field. lra.
  - pose proof (p2_pos e). assert (IZR (Zneg n) < 0) by (apply IZR_lt; reflexivity). unfold D2R in H. nra.
Qed.
Lemma dinv_up_ge b : 0 < D2R b -> / D2R b <= D2R (dinv_up b).
Proof.
  destruct b as [[|n|n] e]; intros H; unfold dinv_up.
  - cbn in H. lra.
  - rewrite dneg_R. pose proof (zdiv_dn_le (-1) n (- e)) as L. unfold D2R at 1. pose proof (p2_opp e) as P. pose proof (p2_pos e).
    assert (Hn : 0 < IZR (Zpos n)) by (apply IZR_lt; reflexivity).
    rewrite Rinv_mult. replace (/ p2 e) with (p2 (- e)); [lra|].
    apply (Rmult_eq_reg_r (p2 e)); [|lra]. rewrite P. field. lra.
  - pose proof (p2_pos e). assert (IZR (Zneg n) < 0) by (apply IZR_lt; reflexivity). unfold D2R in H. nra.
Qed.
Lemma q_dn_le q : D2R (q_dn q) <= Q2R q.
Proof. eapply Rle_trans; [apply zdiv_dn_le|]. rewrite p2_0. unfold Q2R. lra. Qed.
Lemma q_up_ge q : Q2R q <= D2R (q_up q).
Proof.
  unfold q_up. rewrite dneg_R. pose proof (zdiv_dn_le (- Qnum q) (Qden q) 0) as H. rewrite p2_0, opp_IZR in H.
  unfold Q2R. lra.
Qed.

(** Roots: bounds on r^n. *)
Lemma pow_p2 e n : p2 e ^ n = p2 (e * Z.of_nat n).
Proof.
  induction n as [|n IH]; [rewrite Z.mul_0_r; reflexivity|].
  rewrite Nat2Z.inj_succ, Z.mul_succ_r, p2_add, <- IH. cbn [pow]. ring.
Qed.
Lemma zroot_ge0 n m : (0 <= zroot n m)%Z.
Proof. apply Z.abs_nonneg. Qed.
Lemma root_norm_R n a m e : (0 < n)%Z -> root_norm n a = (m, e) -> D2R a = IZR m * p2 (e * n).
Proof.
  destruct a as [m0 e0]. unfold root_norm. intros Hn H. injection H as <- <-.
  set (k0 := Z.max 0 (n * prec - Z.log2 m0)). assert (0 <= k0)%Z by apply Z.le_max_l.
  pose proof (Z.mod_pos_bound (e0 - k0) n Hn) as Hm. set (k := ((e0 - k0) mod n)%Z) in *.
  rewrite shiftl_R by lia. unfold D2R. do 2 f_equal.
  assert (E : (e0 - (k0 + k) = n * ((e0 - k0) / n))%Z).
  { pose proof (Z.div_mod (e0 - k0) n). fold k in H0. lia. }
  rewrite E. rewrite (Z.mul_comm n), Z.div_mul by lia. lia.
Qed.
Lemma droot_dn_le n a : (0 < n)%Z -> 0 <= D2R a -> 0 <= D2R (droot_dn n a) \/ D2R (droot_dn n a) < 0.
Proof. lra. Qed.
(** A value x with x^n = D2R a (x >= 0). *)
Lemma Zpow_IZR r n : (0 < n)%Z -> IZR (r ^ n) = IZR r ^ Z.to_nat n.
Proof. intros H. rewrite pow_IZR. do 2 f_equal. lia. Qed.
Lemma pow_le_reg x y n : (0 < n)%nat -> 0 <= x -> 0 <= y -> x ^ n <= y ^ n -> x <= y.
Proof.
  intros Hn Hx Hy H. destruct (Rle_or_lt x y) as [L|L]; [exact L|].
  assert (y ^ n < x ^ n); [|lra]. clear H. induction n as [|[|n] IH]; [lia|lra|].
  cbn [pow] in *. specialize (IH ltac:(lia)).
  assert (0 <= y * y ^ n) by (apply Rmult_le_pos; [lra|apply pow_le; lra]). nra.
Qed.
Lemma droot_dn_spec n a x y : (0 < n)%Z -> 0 <= D2R a -> 0 <= x -> x ^ Z.to_nat n = y -> D2R a <= y -> D2R (droot_dn n a) <= x.
Proof.
  intros Hn Ha Hx E Hy. unfold droot_dn. destruct (root_norm n a) as [m e] eqn:N.
  pose proof (root_norm_R n a m e Hn N) as R. set (r := zroot _ _).
  assert (Hr : (0 <= r)%Z) by (apply zroot_ge0).
  destruct (r ^ n <=? m)%Z eqn:L; [|rewrite D2R_zero; exact Hx]. apply Z.leb_le in L.
  eapply Rle_trans; [apply rdn_le|]. unfold D2R. apply (pow_le_reg _ _ (Z.to_nat n)); [lia| |exact Hx|].
  - apply Rmult_le_pos; [apply IZR_le; exact Hr|left; apply p2_pos].
  - rewrite E, Rpow_mult_distr, pow_p2, <- Zpow_IZR, Z2Nat.id by lia.
    apply IZR_le in L. pose proof (p2_pos (e * n)). nra.
Qed.
Lemma droot_up_spec n a x y b : (0 < n)%Z -> 0 <= x -> x ^ Z.to_nat n = y -> y <= D2R a -> droot_up n a = Some b -> x <= D2R b.
Proof.
  intros Hn Hx E Hy. unfold droot_up. destruct (root_norm n a) as [m e] eqn:N.
  pose proof (root_norm_R n a m e Hn N) as R. set (r := zroot _ _).
  assert (Hr : (0 <= r)%Z) by (apply zroot_ge0).
  assert (G : forall s, (0 <= s)%Z -> (m <= s ^ n)%Z -> x <= D2R (rup (D s e))).
  { intros s Hs L. eapply Rle_trans; [|apply rup_ge]. unfold D2R. apply (pow_le_reg _ _ (Z.to_nat n)); [lia|exact Hx| |].
    - apply Rmult_le_pos; [apply IZR_le; exact Hs|left; apply p2_pos].
    - rewrite E, Rpow_mult_distr, pow_p2, <- Zpow_IZR, Z2Nat.id by lia.
      apply IZR_le in L. pose proof (p2_pos (e * n)). nra. }
  destruct (r ^ n =? m)%Z eqn:L.
  - apply Z.eqb_eq in L. intros H. injection H as <-. apply G; [exact Hr|lia].
  - destruct (m <=? (r + 1) ^ n)%Z eqn:L2; [|discriminate]. apply Z.leb_le in L2. intros H. injection H as <-. apply G; lia.
Qed.

(** ** Membership *)
Definition in_lo (b : bnd) (x : R) : Prop :=
  match b with Inf => True | Bd a s => if s then D2R a < x else D2R a <= x end.
Definition in_hi (b : bnd) (x : R) : Prop :=
  match b with Inf => True | Bd a s => if s then x < D2R a else x <= D2R a end.
Definition inside (i : itv) (x : R) : Prop := in_lo (lo i) x /\ in_hi (hi i) x.

Lemma inside_top x : inside top x. Proof. split; exact I. Qed.
Lemma lo_weak b s x : in_lo (Bd b s) x -> D2R b <= x.
Proof. destruct s; cbn; lra. Qed.
Lemma hi_weak b s x : in_hi (Bd b s) x -> x <= D2R b.
Proof. destruct s; cbn; lra. Qed.
Lemma in_lo_le a b s x : in_lo (Bd a s) x -> D2R b <= D2R a -> in_lo (Bd b s) x.
Proof. destruct s; cbn; lra. Qed.
Lemma in_hi_ge a b s x : in_hi (Bd a s) x -> D2R a <= D2R b -> in_hi (Bd b s) x.
Proof. destruct s; cbn; lra. Qed.
Lemma lo_nonneg_ok i x : lo_nonneg i = true -> inside i x -> 0 <= x.
Proof.
  intros H [L _]. unfold lo_nonneg in H. destruct (lo i) as [|a s]; [discriminate|].
  apply lo_weak in L. pose proof (dsgn_R a) as S. destruct (dsgn a); [lra|discriminate|lra].
Qed.
Lemma lo_pos_ok i x : lo_pos i = true -> inside i x -> 0 < x.
Proof.
  intros H [L _]. unfold lo_pos in H. destruct (lo i) as [|a s]; [discriminate|].
  pose proof (dsgn_R a) as S. destruct (dsgn a); [subst s; cbn in L; lra|discriminate|apply lo_weak in L; lra].
Qed.
Lemma nbnd_lo b x : in_hi b x -> in_lo (nbnd b) (- x).
Proof. destruct b as [|a [|]]; cbn [nbnd in_hi in_lo]; try rewrite dneg_R; lra. Qed.
Lemma nbnd_hi b x : in_lo b x -> in_hi (nbnd b) (- x).
Proof. destruct b as [|a [|]]; cbn [nbnd in_hi in_lo]; try rewrite dneg_R; lra. Qed.
Lemma ineg_ok i x : inside i x -> inside (ineg i) (- x).
Proof. intros [A B]. split; [apply nbnd_lo, B|apply nbnd_hi, A]. Qed.
Lemma ineg_ok' i x : inside i (- x) -> inside (ineg i) x.
Proof. intros H. apply ineg_ok in H. rewrite Ropp_involutive in H. exact H. Qed.
Lemma const_ok a : inside (const a) (D2R a).
Proof. split; cbn; lra. Qed.
Lemma of_Q_ok q : inside (of_Q q) (Q2R q).
Proof. split; cbn; [apply q_dn_le|apply q_up_ge]. Qed.
Lemma badd_dn_ok a b x y : in_lo a x -> in_lo b y -> in_lo (badd_dn a b) (x + y).
Proof.
  destruct a as [|u s], b as [|v t]; cbn [badd_dn]; try (intros; exact I). intros A B.
  eapply in_lo_le; [|apply rdn_le]. destruct s, t; cbn [in_lo orb] in *; rewrite dadd_R; lra.
Qed.
Lemma badd_up_ok a b x y : in_hi a x -> in_hi b y -> in_hi (badd_up a b) (x + y).
Proof.
  destruct a as [|u s], b as [|v t]; cbn [badd_up]; try (intros; exact I). intros A B.
  eapply in_hi_ge; [|apply rup_ge]. destruct s, t; cbn [in_hi orb] in *; rewrite dadd_R; lra.
Qed.
Lemma iadd_ok i j x y : inside i x -> inside j y -> inside (iadd i j) (x + y).
Proof. intros [A B] [C E]. split; [apply badd_dn_ok|apply badd_up_ok]; assumption. Qed.
Lemma isub_ok i j x y : inside i x -> inside j y -> inside (isub i j) (x - y).
Proof. intros A B. apply iadd_ok; [exact A|apply ineg_ok, B]. Qed.

Lemma lo_min_l a b x : in_lo a x -> in_lo (lo_min a b) x.
Proof.
  destruct a as [|u s], b as [|v t]; cbn [lo_min]; try (intros; exact I). intros H.
  pose proof (dcmp_R u v) as C. destruct (dcmp u v); [destruct s, t; cbn in *; lra|exact H|destruct s, t; cbn in *; lra].
Qed.
Lemma lo_min_r a b x : in_lo b x -> in_lo (lo_min a b) x.
Proof.
  destruct a as [|u s], b as [|v t]; cbn [lo_min]; try (intros; exact I). intros H.
  pose proof (dcmp_R u v) as C. destruct (dcmp u v); [destruct s, t; cbn in *; lra|destruct s, t; cbn in *; lra|exact H].
Qed.
Lemma hi_max_l a b x : in_hi a x -> in_hi (hi_max a b) x.
Proof.
  destruct a as [|u s], b as [|v t]; cbn [hi_max]; try (intros; exact I). intros H.
  pose proof (dcmp_R u v) as C. destruct (dcmp u v); destruct s, t; cbn in *; lra.
Qed.
Lemma hi_max_r a b x : in_hi b x -> in_hi (hi_max a b) x.
Proof.
  destruct a as [|u s], b as [|v t]; cbn [hi_max]; try (intros; exact I). intros H.
  pose proof (dcmp_R u v) as C. destruct (dcmp u v); destruct s, t; cbn in *; lra.
Qed.
Lemma join_l i j x : inside i x -> inside (join i j) x.
Proof. intros [A B]. split; [apply lo_min_l, A|apply hi_max_l, B]. Qed.
Lemma join_r i j x : inside j x -> inside (join i j) x.
Proof. intros [A B]. split; [apply lo_min_r, A|apply hi_max_r, B]. Qed.
Lemma meet_ok i j x : inside i x -> inside j x -> inside (meet i j) x.
Proof.
  intros [A B] [C E]. split; cbn [meet lo hi].
  - destruct (lo i) as [|u s], (lo j) as [|v t]; cbn [lo_max]; try assumption.
    pose proof (dcmp_R u v) as K. destruct (dcmp u v); try assumption. destruct s, t; cbn in *; lra.
  - destruct (hi i) as [|u s], (hi j) as [|v t]; cbn [hi_min]; try assumption.
    pose proof (dcmp_R u v) as K. destruct (dcmp u v); try assumption. destruct s, t; cbn in *; lra.
Qed.

(** ** Products *)
Lemma bd_pos_ok a s : bd_pos (Bd a s) = true -> 0 < D2R a.
Proof. cbn. pose proof (dsgn_R a). destruct (dsgn a); try discriminate. auto. Qed.
Lemma is_zero_ok a s : is_zero (Bd a s) = true -> D2R a = 0.
Proof. cbn. pose proof (dsgn_R a). destruct (dsgn a); try discriminate. auto. Qed.
Lemma strict_split s t p q : ((s && (q || t)) || (t && (p || s)))%bool = true ->
  (s = true /\ (q = true \/ t = true)) \/ (t = true /\ (p = true \/ s = true)).
Proof. destruct s, t, p, q; cbn; intuition discriminate. Qed.
(** Lower bound of a product of factors whose lower bounds are non-negative. *)
Lemma bmul_dn_ok a b x y : (forall u s, a = Bd u s -> 0 <= D2R u) -> (forall u s, b = Bd u s -> 0 <= D2R u) ->
  in_lo a x -> in_lo b y -> in_lo (bmul_dn a b) (x * y).
Proof.
  destruct a as [|u s], b as [|v t]; cbn [bmul_dn]; try (intros; exact I). intros Ha Hb A B.
  specialize (Ha u s eq_refl). specialize (Hb v t eq_refl).
  eapply in_lo_le; [|apply rdn_le].
  pose proof (lo_weak _ _ _ A) as A'. pose proof (lo_weak _ _ _ B) as B'.
  assert (W : D2R u * D2R v <= x * y) by (apply Rmult_le_compat; assumption).
  destruct (_ || _)%bool eqn:S; cbn [in_lo]; rewrite dmul_R; [|exact W].
  apply strict_split in S. destruct S as [[-> S]|[-> S]]; cbn in A, B.
  - assert (0 < y) by (destruct S as [S| ->]; [apply bd_pos_ok in S|cbn in B]; lra). nra.
  - assert (0 < x) by (destruct S as [S| ->]; [apply bd_pos_ok in S|cbn in A]; lra). nra.
Qed.
Lemma bmul_up_ok a b x y : 0 <= x -> 0 <= y -> in_hi a x -> in_hi b y -> in_hi (bmul_up a b) (x * y).
Proof.
  intros Hx Hy A B. unfold bmul_up. destruct (is_zero a || is_zero b)%bool eqn:Z.
  - cbn [in_hi]. rewrite D2R_zero. apply orb_prop in Z. destruct Z as [Z|Z].
    + destruct a as [|u s]; [discriminate|]. apply is_zero_ok in Z. apply hi_weak in A. replace x with 0 by lra. lra.
    + destruct b as [|u s]; [discriminate|]. apply is_zero_ok in Z. apply hi_weak in B. replace y with 0 by lra. lra.
  - destruct a as [|u s], b as [|v t]; try exact I. eapply in_hi_ge; [|apply rup_ge].
    pose proof (hi_weak _ _ _ A) as A'. pose proof (hi_weak _ _ _ B) as B'.
    assert (W : x * y <= D2R u * D2R v) by (apply Rmult_le_compat; assumption).
    destruct (_ && _)%bool eqn:S; cbn [in_hi]; rewrite dmul_R; [|exact W].
    apply andb_prop in S. destruct S as [S Pv]. apply andb_prop in S. destruct S as [S Pu].
    apply bd_pos_ok in Pu. apply bd_pos_ok in Pv. apply orb_prop in S. destruct S as [-> | ->]; cbn in A, B; nra.
Qed.
Lemma weak_lo b x : in_lo b x -> in_lo (weak b) x.
Proof. destruct b as [|a [|]]; cbn; lra. Qed.
Lemma weak_hi b x : in_hi b x -> in_hi (weak b) x.
Proof. destruct b as [|a [|]]; cbn; lra. Qed.
(** An upper bound A of x (x of any sign) times an upper bound of y >= 0, if A >= 0. *)
Lemma bmul_up_mixed a b x y : (forall u s, a = Bd u s -> 0 <= D2R u) -> 0 <= y -> in_hi a x -> in_hi b y ->
  in_hi (weak (bmul_up a b)) (x * y).
Proof.
  intros Ha Hy A B. destruct (Rle_or_lt 0 x) as [Hx|Hx].
  - apply weak_hi, bmul_up_ok; assumption.
  - assert (N : x * y <= 0) by nra. unfold bmul_up. destruct (_ || _)%bool; [cbn; lra|].
    destruct a as [|u s], b as [|v t]; try exact I. cbn [weak in_hi]. eapply Rle_trans; [|apply rup_ge].
    rewrite dmul_R. specialize (Ha u s eq_refl). apply hi_weak in B.
    assert (0 <= D2R u * D2R v) by (apply Rmult_le_pos; lra). lra.
Qed.
Lemma not_nonneg_lo i u s : lo_nonneg i = false -> lo i = Bd u s -> D2R u < 0.
Proof. unfold lo_nonneg. intros H E. rewrite E in H. pose proof (dsgn_R u). destruct (dsgn u); try discriminate. assumption. Qed.
Lemma nonneg_lo i u s : lo_nonneg i = true -> lo i = Bd u s -> 0 <= D2R u.
Proof. unfold lo_nonneg. intros H E. rewrite E in H. pose proof (dsgn_R u). destruct (dsgn u); try discriminate; lra. Qed.
Lemma not_nonpos_hi i u s : lo_nonneg (ineg i) = false -> hi i = Bd u s -> 0 < D2R u.
Proof.
  intros H E. assert (E' : lo (ineg i) = Bd (dneg u) s) by (cbn; rewrite E; reflexivity).
  pose proof (not_nonneg_lo _ _ _ H E') as G. rewrite dneg_R in G. lra.
Qed.
Lemma bmul_both_eq a b a' b' : bmul_both a b a' b' = Itv (bmul_dn a b) (bmul_up a' b').
Proof.
  destruct a as [|[m e] s], b as [|[n f] t], a' as [|[m' e'] s'], b' as [|[n' f'] t']; try reflexivity. unfold bmul_both.
  destruct (_ && _ && _ && _)%bool eqn:C; [|reflexivity].
  apply andb_prop in C. destruct C as [C _]. apply andb_prop in C. destruct C as [C _]. apply andb_prop in C. destruct C as [E F].
  apply Z.eqb_eq in E. apply Z.eqb_eq in F. subst e' f'. cbv zeta. unfold bmul_dn, bmul_up, dmul.
  replace (m * n + ((m' - m) * n' + (n' - n) * m))%Z with (m' * n')%Z by ring. reflexivity.
Qed.
Lemma imul_pos_ok i j x y : lo_nonneg j = true -> inside i x -> inside j y -> inside (imul_pos i j) (x * y).
Proof.
  intros Hj Hi Hy. pose proof (lo_nonneg_ok _ _ Hj Hy) as Py. unfold imul_pos. rewrite !bmul_both_eq.
  destruct (lo_nonneg i) eqn:Ei.
  - pose proof (lo_nonneg_ok _ _ Ei Hi) as Px. destruct Hi as [A B], Hy as [C E]. split; cbn [lo hi].
    + apply bmul_dn_ok; auto; intros u s Eu; [apply (nonneg_lo i u s)|apply (nonneg_lo j u s)]; assumption.
    + apply bmul_up_ok; assumption.
  - destruct (lo_nonneg (ineg i)) eqn:En.
    + apply ineg_ok'. replace (- (x * y)) with ((- x) * y) by ring. pose proof (ineg_ok _ _ Hi) as Hn.
      pose proof (lo_nonneg_ok _ _ En Hn) as Px. destruct Hn as [A B], Hy as [C E]. split; cbn [lo hi].
      * apply bmul_dn_ok; auto; intros u s Eu; [apply (nonneg_lo (ineg i) u s)|apply (nonneg_lo j u s)]; assumption.
      * apply bmul_up_ok; assumption.
    + destruct Hi as [A B], Hy as [C E]. split; cbn [lo hi].
      * replace (x * y) with (- ((- x) * y)) by ring.
        assert (G : in_hi (weak (bmul_up (nbnd (lo i)) (hi j))) (- x * y)).
        { apply bmul_up_mixed; [|exact Py|apply nbnd_hi, A|exact E].
          intros u s Eu. destruct (lo i) as [|v t] eqn:El; [discriminate|]. injection Eu as <- <-.
          pose proof (not_nonneg_lo _ _ _ Ei El). rewrite dneg_R. lra. }
        apply nbnd_lo in G. destruct (bmul_up _ _); exact G.
      * apply bmul_up_mixed; [|exact Py|exact B|exact E].
        intros u s Eu. pose proof (not_nonpos_hi _ _ _ En Eu). lra.
Qed.
Lemma bmul_up_signs a b x y : (forall u s, a = Bd u s -> 0 <= D2R u) -> (forall u s, b = Bd u s -> 0 <= D2R u) ->
  in_hi a x -> in_hi b y -> x * y <= 0 \/ (0 <= x /\ 0 <= y) -> in_hi (weak (bmul_up a b)) (x * y).
Proof.
  intros Ha Hb A B [N|[Hx Hy]]; [|apply weak_hi, bmul_up_ok; assumption].
  unfold bmul_up. destruct (_ || _)%bool; [cbn; lra|].
  destruct a as [|u s], b as [|v t]; try exact I. cbn [weak in_hi]. eapply Rle_trans; [|apply rup_ge].
  rewrite dmul_R. specialize (Ha u s eq_refl). specialize (Hb v t eq_refl).
  assert (0 <= D2R u * D2R v) by (apply Rmult_le_pos; lra). lra.
Qed.
Lemma weak_max_l a b x : in_hi (weak a) x -> in_hi (weak (hi_max a b)) x.
Proof.
  destruct a as [|u s], b as [|v t]; cbn [weak hi_max]; try (intros; exact I). intros H. pose proof (dcmp_R u v) as C.
  destruct (dcmp u v); cbn in *; lra.
Qed.
Lemma weak_max_r a b x : in_hi (weak b) x -> in_hi (weak (hi_max a b)) x.
Proof.
  destruct a as [|u s], b as [|v t]; cbn [weak hi_max]; try (intros; exact I). intros H. pose proof (dcmp_R u v) as C.
  destruct (dcmp u v); cbn in *; lra.
Qed.
Lemma weak_nbnd b : weak (nbnd b) = nbnd (weak b).
Proof. destruct b; reflexivity. Qed.
Lemma imul_ok i j x y : inside i x -> inside j y -> inside (imul i j) (x * y).
Proof.
  intros Hi Hj. unfold imul. destruct (lo_nonneg j) eqn:Ej; [apply imul_pos_ok; assumption|].
  destruct (lo_nonneg (ineg j)) eqn:Enj.
  { apply ineg_ok'. replace (- (x * y)) with (x * (- y)) by ring. apply imul_pos_ok; [exact Enj|exact Hi|apply ineg_ok, Hj]. }
  destruct (lo_nonneg i) eqn:Ei; [rewrite Rmult_comm; apply imul_pos_ok; assumption|].
  destruct (lo_nonneg (ineg i)) eqn:Eni.
  { apply ineg_ok'. replace (- (x * y)) with (y * (- x)) by ring. apply imul_pos_ok; [exact Eni|exact Hj|apply ineg_ok, Hi]. }
  assert (Pi : forall u s, hi i = Bd u s -> 0 <= D2R u) by (intros u s E; pose proof (not_nonpos_hi _ _ _ Eni E); lra).
  assert (Pj : forall u s, hi j = Bd u s -> 0 <= D2R u) by (intros u s E; pose proof (not_nonpos_hi _ _ _ Enj E); lra).
  assert (Ni : forall u s, nbnd (lo i) = Bd u s -> 0 <= D2R u).
  { intros u s E. destruct (lo i) as [|v t] eqn:L; [discriminate|]. injection E as <- <-.
    pose proof (not_nonneg_lo _ _ _ Ei L). rewrite dneg_R. lra. }
  assert (Nj : forall u s, nbnd (lo j) = Bd u s -> 0 <= D2R u).
  { intros u s E. destruct (lo j) as [|v t] eqn:L; [discriminate|]. injection E as <- <-.
    pose proof (not_nonneg_lo _ _ _ Ej L). rewrite dneg_R. lra. }
  destruct Hi as [A B], Hj as [C E].
  pose proof (nbnd_hi _ _ A) as A'. pose proof (nbnd_hi _ _ C) as C'.
  assert (S : (0 <= x \/ x <= 0) /\ (0 <= y \/ y <= 0)) by lra. split; cbn [lo hi].
  - rewrite weak_nbnd. replace (x * y) with (- (- x * y)) by ring. apply nbnd_lo.
    assert (D : - x * y <= 0 \/ (0 <= - x /\ 0 <= y) \/ (0 <= x /\ 0 <= - y)) by (destruct S as [[|] [|]]; [left; nra|right; right; lra|right; left; lra|left; nra]).
    destruct D as [D|[D|D]].
    + apply weak_max_l. apply bmul_up_signs; auto.
    + apply weak_max_l. apply bmul_up_signs; auto.
    + apply weak_max_r. replace (- x * y) with (x * - y) by ring. apply bmul_up_signs; auto.
  - assert (D : x * y <= 0 \/ (0 <= x /\ 0 <= y) \/ (0 <= - x /\ 0 <= - y)) by (destruct S as [[|] [|]]; [right; left; lra|left; nra|left; nra|right; right; lra]).
    destruct D as [D|[D|D]].
    + apply weak_max_l. apply bmul_up_signs; auto.
    + apply weak_max_l. apply bmul_up_signs; auto.
    + apply weak_max_r. replace (x * y) with (- x * - y) by ring. apply bmul_up_signs; auto.
Qed.

(** ** Inverse, absolute value, powers *)
Lemma iinv_far_ok i x : 0 < x -> inside i x -> inside (iinv_far i) (/ x).
Proof.
  intros Hx [A B]. assert (Hi : 0 < / x) by (apply Rinv_0_lt_compat, Hx). split; cbn [iinv_far lo hi].
  - destruct (hi i) as [|b s] eqn:E; [cbn [in_lo in_hi]; rewrite D2R_zero; exact Hi|].
    destruct (bd_pos (Bd b s)) eqn:P; [|cbn [in_lo in_hi]; rewrite D2R_zero; exact Hi]. apply bd_pos_ok in P.
    pose proof (dinv_dn_le b P) as L. destruct s; cbn in B |- *.
    + eapply Rle_lt_trans; [exact L|]. apply Rinv_lt_contravar; [nra|exact B].
    + eapply Rle_trans; [exact L|]. apply Rinv_le_contravar; assumption.
  - destruct (lo i) as [|a s] eqn:E; [exact I|]. destruct (bd_pos (Bd a s)) eqn:P; [|exact I]. apply bd_pos_ok in P.
    pose proof (dinv_up_ge a P) as L. destruct s; cbn in A |- *.
    + eapply Rlt_le_trans; [|exact L]. apply Rinv_lt_contravar; [nra|exact A].
    + eapply Rle_trans; [|exact L]. apply Rinv_le_contravar; assumption.
Qed.
Lemma inv_lo_le b s x y : 0 < x -> 0 < D2R b -> in_hi (Bd b s) x -> y <= / D2R b -> if s then y < / x else y <= / x.
Proof.
  intros Hx Hb H L. destruct s; cbn in H.
  - eapply Rle_lt_trans; [exact L|]. apply Rinv_lt_contravar; [nra|exact H].
  - eapply Rle_trans; [exact L|]. apply Rinv_le_contravar; assumption.
Qed.
Lemma inv_hi_ge a s x y : 0 < D2R a -> in_lo (Bd a s) x -> / D2R a <= y -> if s then / x < y else / x <= y.
Proof.
  intros Ha H L. destruct s; cbn in H.
  - eapply Rlt_le_trans; [|exact L]. apply Rinv_lt_contravar; [nra|exact H].
  - eapply Rle_trans; [|exact L]. apply Rinv_le_contravar; assumption.
Qed.
Lemma p2_sub_inv e k : (0 <= k)%Z -> p2 (- e - k) = / (IZR (2 ^ k) * p2 e).
Proof.
  intros H. rewrite <- p2_Z by exact H. pose proof (p2_pos k). pose proof (p2_pos e). pose proof (p2_opp e) as P. pose proof (p2_opp k) as Q.
  replace (- e - k)%Z with (- e + - k)%Z by lia. rewrite p2_add.
  apply (Rmult_eq_reg_r (p2 k * p2 e)); [|apply Rgt_not_eq; nra]. rewrite Rinv_l by (apply Rgt_not_eq; nra).
  replace (p2 (- e) * p2 (- k) * (p2 k * p2 e)) with ((p2 (- e) * p2 e) * (p2 (- k) * p2 k)) by ring. rewrite P, Q. ring.
Qed.
Lemma iinv_pos_ok i x : 0 < x -> inside i x -> inside (iinv_pos i) (/ x).
Proof.
  intros Hx H. unfold iinv_pos.
  destruct (lo i) as [|[[|m|m] e] s] eqn:El; try (apply iinv_far_ok; assumption).
  destruct (hi i) as [|[[|n|n] f] t] eqn:Eh; try (apply iinv_far_ok; assumption).
  destruct (_ && _)%bool eqn:C; [|apply iinv_far_ok; assumption]. apply andb_prop in C. destruct C as [C Le]. apply Z.eqb_eq in C. subst f.
  unfold near in Le. apply andb_prop in Le. destruct Le as [Le _]. apply Z.leb_le in Le.
  set (k := Z.max 0 _). assert (K : (0 <= k)%Z) by (apply Z.le_max_l). clearbody k.
  assert (S : shl 1 k = (2 ^ k)%Z) by (rewrite shl_shiftl, Z.shiftl_mul_pow2 by exact K; lia). rewrite S.
  assert (P : (0 < 2 ^ k)%Z) by (apply Z.pow_pos_nonneg; lia).
  pose proof (Z_div_mod (2 ^ k) (Zpos n) ltac:(reflexivity)) as Q. destruct (Z.div_eucl (2 ^ k) (Zpos n)) as [q r]. destruct Q as [Q R]. cbv zeta.
  set (q' := if (r =? 0)%Z then q else (q + 1)%Z). set (d := (Zpos n - Zpos m)%Z). set (h := if (d =? 0)%Z then q' else _).
  assert (Q' : (2 ^ k <= q' * Zpos n)%Z).
  { unfold q'. destruct (r =? 0)%Z eqn:Z0; [apply Z.eqb_eq in Z0|]; nia. }
  assert (Hh : (2 ^ k <= h * Zpos m)%Z).
  { unfold h. destruct (d =? 0)%Z eqn:Z0; [apply Z.eqb_eq in Z0; unfold d in Z0; replace (Zpos m) with (Zpos n) by lia; exact Q'|].
    pose proof (Z.mul_succ_div_gt (d * q') (Zpos m) ltac:(reflexivity)) as G. unfold Z.succ in G.
    unfold d in *. nia. }
  clearbody h q' d. pose proof (p2_pos e) as Pe. apply IZR_lt in P.
  assert (Pm : 0 < IZR (Zpos m)) by (apply IZR_lt; reflexivity). assert (Pn : 0 < IZR (Zpos n)) by (apply IZR_lt; reflexivity).
  assert (L1 : D2R (rdn (D q (- e - k))) <= / D2R (D (Zpos n) e)).
  { eapply Rle_trans; [apply rdn_le|]. unfold D2R. rewrite p2_sub_inv, !Rinv_mult by exact K.
    assert (A : (Zpos n * q <= 2 ^ k)%Z) by lia. apply IZR_le in A. rewrite mult_IZR in A.
    apply Rle_trans with ((IZR q * / IZR (2 ^ k)) * / p2 e); [lra|]. apply Rmult_le_compat_r; [left; apply Rinv_0_lt_compat, Pe|].
    apply (Rmult_le_reg_l (IZR (Zpos n) * IZR (2 ^ k))); [nra|].
    replace (IZR (Zpos n) * IZR (2 ^ k) * (IZR q * / IZR (2 ^ k))) with (IZR (Zpos n) * IZR q) by (field; lra).
    replace (IZR (Zpos n) * IZR (2 ^ k) * / IZR (Zpos n)) with (IZR (2 ^ k)) by (field; lra). exact A. }
  assert (L2 : / D2R (D (Zpos m) e) <= D2R (rup (D h (- e - k)))).
  { eapply Rle_trans; [|apply rup_ge]. unfold D2R. rewrite p2_sub_inv, !Rinv_mult by exact K.
    apply IZR_le in Hh. rewrite mult_IZR in Hh.
    apply Rle_trans with ((IZR h * / IZR (2 ^ k)) * / p2 e); [|lra]. apply Rmult_le_compat_r; [left; apply Rinv_0_lt_compat, Pe|].
    apply (Rmult_le_reg_l (IZR (Zpos m) * IZR (2 ^ k))); [nra|].
    replace (IZR (Zpos m) * IZR (2 ^ k) * (IZR h * / IZR (2 ^ k))) with (IZR h * IZR (Zpos m)) by (field; lra).
    replace (IZR (Zpos m) * IZR (2 ^ k) * / IZR (Zpos m)) with (IZR (2 ^ k)) by (field; lra). exact Hh. }
  assert (Dm : 0 < D2R (D (Zpos m) e)) by (unfold D2R; nra). assert (Dn : 0 < D2R (D (Zpos n) e)) by (unfold D2R; nra).
  destruct H as [A B]. rewrite El in A. rewrite Eh in B. split; cbn [lo hi].
  - exact (inv_lo_le _ _ _ _ Hx Dn B L1).
  - exact (inv_hi_ge _ _ _ _ Dm A L2).
Qed.
Lemma idiv_pos_ok i p x : inside i x -> inside (idiv_pos i p) (x / IZR (Zpos p)).
Proof.
  intros [A B]. assert (P : 0 < / IZR (Zpos p)) by (apply Rinv_0_lt_compat, IZR_lt; reflexivity). unfold Rdiv. split; cbn [idiv_pos lo hi].
  - destruct (lo i) as [|[m e] s]; [exact I|]. pose proof (zdiv_dn_le m p e) as L. unfold D2R in A. destruct s; cbn in A |- *; nra.
  - destruct (hi i) as [|[m e] s]; [exact I|]. pose proof (zdiv_dn_le (- m) p e) as L. rewrite opp_IZR in L. unfold D2R in B.
    destruct s; cbn in B |- *; rewrite dneg_R; nra.
Qed.
Lemma iinv_ok i j x : iinv i = Some j -> inside i x -> x <> 0 /\ inside j (/ x).
Proof.
  unfold iinv. intros H Hx. destruct (lo_pos i) eqn:P.
  - injection H as <-. pose proof (lo_pos_ok _ _ P Hx). split; [lra|apply iinv_pos_ok; assumption].
  - destruct (lo_pos (ineg i)) eqn:N; [|discriminate]. injection H as <-. pose proof (ineg_ok _ _ Hx) as Hn.
    pose proof (lo_pos_ok _ _ N Hn). split; [lra|]. apply ineg_ok'. rewrite <- Rinv_opp by lra. apply iinv_pos_ok; assumption.
Qed.
Lemma iabs_ok i x : inside i x -> inside (iabs i) (Rabs x).
Proof.
  intros H. unfold iabs. destruct (lo_nonneg i) eqn:P.
  - pose proof (lo_nonneg_ok _ _ P H). rewrite Rabs_pos_eq; assumption.
  - destruct (lo_nonneg (ineg i)) eqn:N.
    + pose proof (ineg_ok _ _ H) as Hn. pose proof (lo_nonneg_ok _ _ N Hn). rewrite Rabs_left1 by lra. exact Hn.
    + destruct H as [A B]. split; cbn [lo hi]; [cbn [in_lo in_hi]; rewrite D2R_zero; apply Rabs_pos|].
      unfold Rabs. destruct (Rcase_abs x); [apply hi_max_r, nbnd_hi, A|apply hi_max_l, B].
Qed.
Lemma sq_abs x : Rabs x * Rabs x = x * x.
Proof. unfold Rabs. destruct (Rcase_abs x); ring. Qed.
Lemma ipow_pos_ok i x : inside i x -> forall p, inside (ipow_pos i p) (x ^ Pos.to_nat p).
Proof.
  intros H. induction p as [p IH|p IH|]; cbn [ipow_pos].
  - rewrite Pos2Nat.inj_xI. replace (x ^ S (2 * Pos.to_nat p)) with (x * (Rabs (x ^ Pos.to_nat p) * Rabs (x ^ Pos.to_nat p))).
    + apply imul_ok; [exact H|]. apply imul_ok; apply iabs_ok, IH.
    + rewrite sq_abs, <- pow_add. cbn [pow]. f_equal. f_equal. lia.
  - rewrite Pos2Nat.inj_xO. replace (x ^ (2 * Pos.to_nat p)) with (Rabs (x ^ Pos.to_nat p) * Rabs (x ^ Pos.to_nat p)).
    + apply imul_ok; apply iabs_ok, IH.
    + rewrite sq_abs, <- pow_add. f_equal. lia.
  - rewrite pow_1. exact H.
Qed.
(** x^z: defined unless x = 0 and z < 0. *)
Lemma ipow_ok i z j x : ipow i z = Some j -> inside i x -> (x <> 0 \/ (0 <= z)%Z) /\ inside j (powerRZ x z).
Proof.
  intros E H. destruct z as [|p|p]; cbn [ipow] in E.
  - injection E as <-. split; [right; lia|]. cbn. rewrite <- D2R_one. apply const_ok.
  - injection E as <-. split; [right; lia|]. apply ipow_pos_ok, H.
  - destruct (iinv_ok _ _ _ E (ipow_pos_ok _ _ H p)) as [N G]. split; [|exact G].
    left. intros ->. apply N. apply pow_i. lia.
Qed.
(** An n-th root y of x. *)
Lemma bernoulli h g n : (0 <= h -> 0 <= g -> h ^ S n + INR (S n) * h ^ n * g <= (h + g) ^ S n)%R.
Proof.
  intros H G. induction n as [|n IH]; [cbn [INR pow]; lra|].
  assert (P : 0 <= h ^ n) by (apply pow_le, H). assert (N : 0 <= INR (S n)) by apply pos_INR.
  change ((h + g) ^ S (S n)) with ((h + g) * (h + g) ^ S n). rewrite (S_INR (S n)).
  apply Rle_trans with ((h + g) * (h ^ S n + INR (S n) * h ^ n * g)); [|apply Rmult_le_compat_l; [lra|exact IH]].
  cbn [pow]. assert (0 <= INR (S n) * h ^ n) by (apply Rmult_le_pos; assumption). nra.
Qed.
Lemma roots_at_ok x n m l h : (0 < n)%Z -> (0 <= m)%Z -> roots_at x n m = Some (l, h) -> (0 <= l <= h)%Z /\ (l ^ n <= m)%Z /\ (m <= h ^ n)%Z.
Proof.
  intros Hn Hm. unfold roots_at.
  destruct (x <? 0)%Z eqn:X; [discriminate|]. apply Z.ltb_ge in X. cbv zeta.
    assert (P : ((if (n =? 3)%Z then x * x else x ^ (n - 1)) = x ^ (n - 1))%Z).
    { destruct (n =? 3)%Z eqn:E; [apply Z.eqb_eq in E; subst n; change (3 - 1)%Z with 2%Z; rewrite Z.pow_2_r; reflexivity|reflexivity]. }
    assert (P1 : (x * x ^ (n - 1) = x ^ n)%Z) by (rewrite <- Z.pow_succ_r by lia; f_equal; lia).
    assert (P3 : (n =? 3)%Z = true -> (x ^ (n - 1) = x * x)%Z) by (intros E; rewrite E in P; symmetry; exact P).
    rewrite P, P1.
    assert (Up : ((if (n =? 3)%Z then x ^ n + (3 * (x ^ (n - 1) + x) + 1) else (x + 1) ^ n) = (x + 1) ^ n)%Z).
    { destruct (n =? 3)%Z eqn:E; [|reflexivity]. rewrite <- P1, (P3 eq_refl). apply Z.eqb_eq in E. subst n. ring. }
    assert (Dn : ((if (n =? 3)%Z then x ^ n - (3 * (x ^ (n - 1) - x) + 1) else (x - 1) ^ n) = (x - 1) ^ n)%Z).
    { destruct (n =? 3)%Z eqn:E; [|reflexivity]. rewrite <- P1, (P3 eq_refl). apply Z.eqb_eq in E. subst n. ring. }
    rewrite Up, Dn. clear Up Dn P P3. destruct (Z.compare_spec (x ^ n) m) as [E|E|E].
    + intros H. injection H as <- <-. lia.
    + destruct (m <=? (x + 1) ^ n)%Z eqn:C; [|discriminate]. apply Z.leb_le in C. intros H. injection H as <- <-. lia.
    + destruct (_ && _)%bool eqn:C; [|discriminate]. apply andb_prop in C. destruct C as [C0 C]. apply Z.leb_le in C0. apply Z.leb_le in C.
      intros H. injection H as <- <-. lia.
Qed.
Lemma roots_ok n m l h : (0 < n)%Z -> (0 <= m)%Z -> roots n m = Some (l, h) -> (0 <= l <= h)%Z /\ (l ^ n <= m)%Z /\ (m <= h ^ n)%Z.
Proof.
  intros Hn Hm. unfold roots. destruct (n =? 2)%Z eqn:E2.
  - apply Z.eqb_eq in E2. subst n. pose proof (Z.sqrtrem_spec m Hm) as S. destruct (Z.sqrtrem m) as [s r]. destruct S as [S R].
    intros H. injection H as <- <-. rewrite !Z.pow_2_r. destruct (r =? 0)%Z eqn:Z0; [apply Z.eqb_eq in Z0|apply Z.eqb_neq in Z0]; nia.
  - exact (roots_at_ok _ n m l h Hn Hm).
Qed.
Lemma root_norm_ge0 n a m e : (0 < n)%Z -> 0 <= D2R a -> root_norm n a = (m, e) -> (0 <= m)%Z.
Proof.
  intros Hn Ha N. rewrite (root_norm_R n a m e Hn N) in Ha. pose proof (p2_pos (e * n)). apply le_IZR. nra.
Qed.
(** Bounds l, h of a root from l^n and h^n. *)
Lemma root_lo n a s l e x y : (0 < n)%Z -> (0 <= l)%Z -> IZR (l ^ n) * p2 (e * n) <= D2R a -> in_lo (Bd a s) x -> 0 <= y -> y ^ Z.to_nat n = x ->
  in_lo (Bd (rdn (D l e)) s) y.
Proof.
  intros Hn Hl L A Hy E. eapply in_lo_le; [|apply rdn_le]. rewrite Zpow_IZR in L by exact Hn.
  assert (Q : D2R (D l e) ^ Z.to_nat n <= D2R a) by (unfold D2R at 1; rewrite Rpow_mult_distr, pow_p2, Z2Nat.id by lia; exact L).
  assert (P : 0 <= D2R (D l e)) by (unfold D2R; apply Rmult_le_pos; [apply IZR_le, Hl|left; apply p2_pos]).
  assert (W : D2R (D l e) <= y) by (apply (pow_le_reg _ _ (Z.to_nat n)); [lia|exact P|exact Hy|apply lo_weak in A; lra]).
  destruct s; cbn in A |- *; [|exact W]. destruct W as [W|W]; [exact W|]. rewrite W, E in Q. lra.
Qed.
Lemma root_hi n b s h e x y : (0 < n)%Z -> (0 <= h)%Z -> D2R b <= IZR (h ^ n) * p2 (e * n) -> in_hi (Bd b s) x -> 0 <= y -> y ^ Z.to_nat n = x ->
  in_hi (Bd (rup (D h e)) s) y.
Proof.
  intros Hn Hl L A Hy E. eapply in_hi_ge; [|apply rup_ge]. rewrite Zpow_IZR in L by exact Hn.
  assert (Q : D2R b <= D2R (D h e) ^ Z.to_nat n) by (unfold D2R at 2; rewrite Rpow_mult_distr, pow_p2, Z2Nat.id by lia; exact L).
  assert (P : 0 <= D2R (D h e)) by (unfold D2R; apply Rmult_le_pos; [apply IZR_le, Hl|left; apply p2_pos]).
  assert (W : y <= D2R (D h e)) by (apply (pow_le_reg _ _ (Z.to_nat n)); [lia|exact Hy|exact P|apply hi_weak in A; lra]).
  destruct s; cbn in A |- *; [|exact W]. destruct W as [W|W]; [exact W|]. rewrite <- W, E in Q. lra.
Qed.
Lemma tangent n m m' l h g : (0 < n)%Z -> (0 <= l <= h)%Z -> (0 <= g)%Z -> (m <= h ^ n)%Z -> (m' - m <= g * (n * l ^ (n - 1)))%Z -> (m' <= (h + g) ^ n)%Z.
Proof.
  intros Hn Hl Hg Hm Hd.
  assert (B : (h ^ n + n * h ^ (n - 1) * g <= (h + g) ^ n)%Z).
  { apply le_IZR. rewrite plus_IZR, !mult_IZR, (Zpow_IZR h n), (Zpow_IZR (h + g) n), plus_IZR by lia.
    assert (Hh : 0 <= IZR h) by (apply IZR_le; lia). assert (Gg : 0 <= IZR g) by (apply IZR_le; lia).
    pose proof (bernoulli (IZR h) (IZR g) (Z.to_nat (n - 1)) Hh Gg) as Q.
    replace (S (Z.to_nat (n - 1))) with (Z.to_nat n) in Q by lia. rewrite INR_IZR_INZ, Z2Nat.id in Q by lia.
    assert (T : IZR (h ^ (n - 1)) = IZR h ^ Z.to_nat (n - 1)).
    { destruct (Z.eq_dec n 1) as [->|Ne]; [reflexivity|]. apply Zpow_IZR. lia. }
    rewrite T. exact Q. }
  assert (M : (l ^ (n - 1) <= h ^ (n - 1))%Z) by (apply Z.pow_le_mono_l; lia).
  replace (n * h ^ (n - 1) * g)%Z with (g * (n * h ^ (n - 1)))%Z in B by ring.
  assert (g * (n * l ^ (n - 1)) <= g * (n * h ^ (n - 1)))%Z by (apply Z.mul_le_mono_nonneg_l; [exact Hg|apply Z.mul_le_mono_nonneg_l; lia]). lia.
Qed.
Lemma iroot_ok n i x y : (0 < n)%Z -> inside i x -> 0 <= y -> y ^ Z.to_nat n = x -> lo_nonneg i = true -> inside (iroot_nonneg n i) y.
Proof.
  intros Hn [A B] Hy E P. unfold iroot_nonneg.
  assert (Z0 : inside nonneg_itv y) by (split; [cbn [nonneg_itv lo in_lo]; rewrite D2R_zero; exact Hy|exact I]).
  destruct (lo i) as [|a s] eqn:L; [exact Z0|]. assert (Ha : 0 <= D2R a) by (eapply nonneg_lo; eauto).
  assert (Low : forall m e l h, root_norm n a = (m, e) -> roots n m = Some (l, h) -> in_lo (Bd (rdn (D l e)) s) y).
  { intros m e l h N R. destruct (roots_ok n m l h Hn (root_norm_ge0 _ _ _ _ Hn Ha N) R) as (L0 & L1 & _).
    apply (root_lo n a s l e x y); auto; [lia|]. rewrite (root_norm_R n a m e Hn N). apply Rmult_le_compat_r; [left; apply p2_pos|apply IZR_le, L1]. }
  destruct (root_norm n a) as [m e] eqn:N. destruct (hi i) as [|b t] eqn:H.
  { split; cbn [lo hi]; [|exact I]. destruct (roots n m) as [[l h]|] eqn:R; [exact (Low _ _ _ _ eq_refl R)|exact (proj1 Z0)]. }
  assert (Hb : 0 <= D2R b) by (apply lo_weak in A; apply hi_weak in B; lra).
  destruct (root_norm n b) as [m' e'] eqn:N'. pose proof (root_norm_ge0 _ _ _ _ Hn Ha N) as M0. pose proof (root_norm_ge0 _ _ _ _ Hn Hb N') as M0'.
  destruct (roots n m) as [[l h]|] eqn:R; [|exact Z0]. destruct (roots_ok n m l h Hn M0 R) as (L0 & L1 & L2).
  cbv zeta. split; cbn [lo hi]; [exact (Low _ _ _ _ eq_refl R)|].
  set (d := (m' - m)%Z). set (g := if (d =? 0)%Z then 0%Z else _).
  destruct (_ && _ && _)%bool eqn:C.
  - apply andb_prop in C. destruct C as [C _]. apply andb_prop in C. destruct C as [C G]. apply Z.eqb_eq in C. subst e'. apply Z.leb_le in G.
    apply (root_hi n b t (h + g) e x y); auto; [lia|]. rewrite (root_norm_R n b m' e Hn N').
    apply Rmult_le_compat_r; [left; apply p2_pos|apply IZR_le]. apply (tangent n m m' l h g); auto.
    fold d. unfold g in G |- *. destruct (d =? 0)%Z eqn:D0; [apply Z.eqb_eq in D0; lia|].
    destruct (_ && _)%bool eqn:D1; [|discriminate G || (exfalso; apply G; reflexivity)].
    apply andb_prop in D1. destruct D1 as [D1 D2]. apply Z.ltb_lt in D1. apply Z.ltb_lt in D2.
    assert (T : ((if (n =? 2)%Z then l else l ^ (n - 1)) = l ^ (n - 1))%Z).
    { destruct (n =? 2)%Z eqn:E2; [apply Z.eqb_eq in E2; subst n; change (2 - 1)%Z with 1%Z; rewrite Z.pow_1_r; reflexivity|reflexivity]. }
    rewrite T. assert (Pl : (0 < l ^ (n - 1))%Z) by (apply Z.pow_pos_nonneg; lia).
    pose proof (Z.mul_succ_div_gt d (n * l ^ (n - 1)) ltac:(nia)) as Q. unfold Z.succ in Q. lia.
  - destruct (roots n m') as [[l' h']|] eqn:R'; [|exact I]. destruct (roots_ok n m' l' h' Hn M0' R') as (L0' & _ & L2').
    apply (root_hi n b t h' e' x y); auto; [lia|]. rewrite (root_norm_R n b m' e' Hn N').
    apply Rmult_le_compat_r; [left; apply p2_pos|apply IZR_le, L2'].
Qed.
End Precision.

(** The bounds of pi are bounds of pi. *)
Class pi_known {prc : setting} : Prop := pi_itv_ok : inside pi_itv PI.
