(** Rotations, gradient products and tau, for densities and orbitals given as functions. *)
From Coq Require Import Reals List Bool QArith Arith Lra Lia FunctionalExtensionality.
From Verif Require Import Bytes Syntax Parser PostProcess Src Semantics Free Vec Deriv Impl ImplThm ImplThm2.
Import ListNotations.
Open Scope R_scope.

(** ** C18 *)
Lemma agree_mgga_for t d F F' mo mo' : family t -> agree_mgga d F F' mo mo' -> agree_for t d F F' mo mo'.
Proof.
  intros [E|[E|E]] H; unfold agree_for.
  - left. split; [exact E|exact (proj1 (proj1 H))].
  - right. left. split; [exact E|exact (proj1 H)].
  - right. right. split; assumption.
Qed.
Lemma all_nodes_impl (P Q : func_p -> Prop) : (forall q, P q -> Q q) -> forall p, all_nodes P p -> all_nodes Q p.
Proof.
  intros H. induction p as [name ty ns mp sc pa aux mix IH] using func_p_ind'. intros Hall.
  pose proof (all_nodes_here _ _ Hall) as Hh. cbn [all_nodes]. split; [apply H, Hh|].
  destruct aux as [ps|]; [|exact Logic.I]. specialize (IH ps eq_refl). pose proof (all_nodes_aux _ _ ps Hall eq_refl) as Ha.
  clear Hall Hh. induction ps as [|q ps IHps]; [exact Logic.I|]. inversion IH as [|? ? IHq IH2]; subst. inversion Ha as [|? ? Hq Ha2]; subst. split; [exact (IHq Hq)|exact (IHps IH2 Ha2)].
Qed.
Theorem rotation_invariant I impl p d Q t x sh sh' rho mo F F' M M' :
  isometry d Q ->
  at_point d sh rho (move d Q t x) F -> at_point d sh (fun y => rho (move d Q t y)) x F' ->
  at_point_c d sh' mo (move d Q t x) M -> at_point_c d sh' (fun y => mo (move d Q t y)) x M' ->
  all_nodes (fun q => family (fp_type q)) p ->
  epsilon_xc I impl p d F (Some M) = epsilon_xc I impl p d F' (Some M') /\
  epsilon_xc I impl p d F None = epsilon_xc I impl p d F' None.
Proof.
  intros HQ H1 H2 H3 H4 Hall.
  assert (A : agree_mgga d F F' (Some M) (Some M')) by (eapply rotated_agree; eassumption).
  assert (B : agree_mgga d F F' None None) by (destruct A as (A1 & A2 & _); exact (conj A1 (conj A2 Logic.I))).
  assert (A' : all_nodes (fun q => agree_for (fp_type q) d F F' (Some M) (Some M')) p).
  { revert Hall. apply all_nodes_impl. intros q Hq. apply agree_mgga_for; assumption. }
  assert (B' : all_nodes (fun q => agree_for (fp_type q) d F F' None None) p).
  { revert Hall. apply all_nodes_impl. intros q Hq. apply agree_mgga_for; assumption. }
  split; apply semilocal_top; auto.
Qed.

(** ** C17 *)
Definition fa_grads (a : fargs) : option grads :=
  match a with ALda _ => None | AGga _ s | AMgga _ s _ _ => Some s end.
Lemma args_inv p d F mo deo a : rho_to_arguments p d F mo deo = Ok a -> forall s, fa_grads a = Some s ->
  s = grad_products d (match f_shape F with [] => false | _ => true end) F /\ (f_shape F = [] \/ f_shape F = [2%nat]).
Proof.
  intros H s Hs.
  assert (K : forall A (m : res A) (k : A -> res fargs), rbind m k = Ok a -> exists x, m = Ok x /\ k x = Ok a)
    by (intros A [x|] k E; [eauto|discriminate]).
  unfold rho_to_arguments in H. destruct (negb _); [discriminate|].
  apply K in H. destruct H as (u & _ & H). apply K in H. destruct H as (dens & Hd & H).
  destruct (f_shape F) as [|[|[|[|]]] [|]] eqn:Esh; try discriminate; injection Hd as <-.
  - split; [|auto]. destruct ((fp_nspin p =? 1) && false || (fp_nspin p =? 2) && negb false); [discriminate|].
    destruct (is_type p "lda"); [injection H as <-; discriminate|].
    destruct (is_type p "gga"); [injection H as <-; injection Hs as <-; reflexivity|].
    destruct mo as [m|]; [|discriminate]. apply K in H. destruct H as (u' & _ & H).
    injection H as <-. injection Hs as <-. reflexivity.
  - split; [|auto]. destruct ((fp_nspin p =? 1) && true || (fp_nspin p =? 2) && negb true); [discriminate|].
    destruct (is_type p "lda"); [injection H as <-; discriminate|].
    destruct (is_type p "gga"); [injection H as <-; injection Hs as <-; reflexivity|].
    destruct mo as [m|]; [|discriminate]. apply K in H. destruct H as (u' & _ & H).
    injection H as <-. injection Hs as <-. reflexivity.
Qed.

Theorem gradient_products_pol p d rho x F mo deo a s0 s1 s2 : at_point d [2%nat] rho x F ->
  rho_to_arguments p d F mo deo = Ok a -> fa_grads a = Some (GPol s0 s1 s2) ->
  0 <= s0 /\ 0 <= s2 /\ s1 * s1 <= s0 * s2 /\
  (forall g, has_grad d (fun y => rho y [0%nat] + rho y [1%nat]) x g -> s0 + 2 * s1 + s2 = dot d g g) /\
  (forall g, has_grad d (fun y => rho y [0%nat]) x g -> s0 = dot d g g) /\
  (forall g, has_grad d (fun y => rho y [1%nat]) x g -> s2 = dot d g g).
Proof.
  intros (Hsh & _ & HG & _) Ha Hs. destruct (args_inv p d F mo deo a Ha _ Hs) as [E _]. rewrite Hsh in E.
  cbn in E. injection E as -> -> ->.
  set (u := f_jac F [0%nat]). set (v := f_jac F [1%nat]).
  split; [apply dot_self_nonneg|]. split; [apply dot_self_nonneg|]. split; [apply cauchy_schwarz|]. split; [|split].
  - intros g Hg. pose proof (has_grad_add d _ _ x _ _ (HG [0%nat]) (HG [1%nat])) as Hsum. fold u v in Hsum.
    assert (E : forall i, (i < d)%nat -> g i = vadd u v i) by (apply (has_grad_unique d _ x _ _ Hg Hsum)).
    rewrite (dot_ext d g (vadd u v) g (vadd u v) E E), dot_add_l, !dot_add_r, (dot_comm d v u). lra.
  - intros g Hg. assert (E : forall i, (i < d)%nat -> g i = u i) by (apply (has_grad_unique d _ x _ _ Hg (HG [0%nat]))).
    symmetry. exact (dot_ext d g u g u E E).
  - intros g Hg. assert (E : forall i, (i < d)%nat -> g i = v i) by (apply (has_grad_unique d _ x _ _ Hg (HG [1%nat]))).
    symmetry. exact (dot_ext d g v g v E E).
Qed.
Theorem gradient_products_unpol p d rho x F mo deo a s : at_point d [] rho x F ->
  rho_to_arguments p d F mo deo = Ok a -> fa_grads a = Some (GUnpol s) ->
  forall g, has_grad d (fun y => rho y []) x g -> s = dot d g g.
Proof.
  intros (Hsh & _ & HG & _) Ha Hs g Hg. destruct (args_inv p d F mo deo a Ha _ Hs) as [E _]. rewrite Hsh in E.
  cbn in E. injection E as ->.
  assert (E : forall i, (i < d)%nat -> g i = f_jac F [] i) by (apply (has_grad_unique d _ x _ _ Hg (HG []))).
  symmetry. exact (dot_ext d g _ g _ E E).
Qed.

(** ** C19 *)
Theorem tau_nonneg d N g : 0 <= orbital_tau d N g.
Proof.
  unfold orbital_tau. apply Rmult_le_pos; [|lra]. apply rsum_nonneg. intros n _. apply rsum_nonneg. intros. apply conj_re_nonneg.
Qed.
Lemma rsum_app n m f : rsum (n + m) f = rsum n f + rsum m (fun i => f (n + i)%nat).
Proof.
  induction m as [|m IH]; simpl; [rewrite Nat.add_0_r; lra|].
  rewrite Nat.add_succ_r. simpl. rewrite IH. lra.
Qed.
Theorem tau_additive d N M g : orbital_tau d (N + M) g = orbital_tau d N g + orbital_tau d M (fun n => g (N + n)%nat).
Proof. unfold orbital_tau. rewrite rsum_app. lra. Qed.

(** Complex arithmetic. *)
Definition cmul (z w : complex) : complex := (fst z * fst w - snd z * snd w, fst z * snd w + snd z * fst w).
Definition csum (n : nat) (f : nat -> complex) : complex := (rsum n (fun k => fst (f k)), rsum n (fun k => snd (f k))).
Definition conj (z : complex) : complex := (fst z, - snd z).
Definition cdelta (n k : nat) : complex := (if Nat.eq_dec n k then 1 else 0, 0).
Definition modsq (z : complex) : R := fst z * fst z + snd z * snd z.
(** U^* U = 1 *)
Definition unitary (N : nat) (U : nat -> nat -> complex) : Prop :=
  forall n k, (n < N)%nat -> (k < N)%nat -> csum N (fun m => cmul (conj (U m n)) (U m k)) = cdelta n k.

Lemma rsum_mul n m f g : rsum n f * rsum m g = rsum n (fun i => rsum m (fun j => f i * g j)).
Proof.
  rewrite Rmult_comm, <- rsum_scal. apply rsum_ext. intros i _. rewrite rsum_scal. lra.
Qed.
Lemma unitary_norm N U (g : nat -> complex) : unitary N U ->
  rsum N (fun m => conj_re (csum N (fun n => cmul (U m n) (g n)))) = rsum N (fun n => conj_re (g n)).
Proof.
  intros HU.
  set (A := fun m n => fst (U m n)). set (B := fun m n => snd (U m n)).
  set (a := fun n => fst (g n)). set (b := fun n => snd (g n)).
  transitivity (rsum N (fun m => rsum N (fun n => rsum N (fun k =>
     (a n * a k + b n * b k) * (A m n * A m k + B m n * B m k) +
     - (a n * b k - b n * a k) * (A m n * B m k - B m n * A m k))))).
  { apply rsum_ext. intros m _. unfold conj_re, csum. cbn [fst snd].
    replace (rsum N (fun k => fst (cmul (U m k) (g k))) * rsum N (fun k => fst (cmul (U m k) (g k))) -
      - rsum N (fun k => snd (cmul (U m k) (g k))) * rsum N (fun k => snd (cmul (U m k) (g k))))
      with (rsum N (fun k => fst (cmul (U m k) (g k))) * rsum N (fun k => fst (cmul (U m k) (g k))) +
      rsum N (fun k => snd (cmul (U m k) (g k))) * rsum N (fun k => snd (cmul (U m k) (g k)))) by ring.
    rewrite !rsum_mul, <- rsum_plus. apply rsum_ext. intros n _. rewrite <- rsum_plus. apply rsum_ext. intros k _.
    unfold cmul. cbn [fst snd]. unfold A, B, a, b. ring. }
  rewrite rsum_swap. apply rsum_ext. intros n Hn. rewrite rsum_swap.
  transitivity (rsum N (fun k => (if Nat.eq_dec k n then 1 else 0) * (a n * a k + b n * b k))).
  - apply rsum_ext. intros k Hk. rewrite rsum_plus, !rsum_scal.
    pose proof (HU n k Hn Hk) as E. unfold csum, cdelta in E. apply pair_equal_spec in E. destruct E as [E1 E2].
    replace (rsum N (fun i => A i n * A i k + B i n * B i k)) with (if Nat.eq_dec n k then 1 else 0).
    2:{ rewrite <- E1. apply rsum_ext. intros m _. unfold cmul, conj, A, B. cbn [fst snd]. ring. }
    replace (rsum N (fun i => A i n * B i k - B i n * A i k)) with 0.
    2:{ rewrite <- E2. apply rsum_ext. intros m _. unfold cmul, conj, A, B. cbn [fst snd]. ring. }
    destruct (Nat.eq_dec n k), (Nat.eq_dec k n); try lra; congruence.
  - rewrite (rsum_delta N n (fun k => a n * a k + b n * b k) Hn). unfold conj_re, a, b. ring.
Qed.

(** Mixing the orbitals, as functions, by a unitary matrix leaves tau unchanged.  [ix] places
    an orbital number in the index of the orbital array: [n] or [s; n]. *)
Theorem tau_unitary d N U sh (ix : nat -> list nat) mo mo' x M M' : unitary N U ->
  at_point_c d sh mo x M -> at_point_c d sh mo' x M' ->
  (forall y m, (m < N)%nat -> mo' y (ix m) = csum N (fun n => cmul (U m n) (mo y (ix n)))) ->
  orbital_tau d N (fun n => f_jac M (ix n)) = orbital_tau d N (fun n => f_jac M' (ix n)).
Proof.
  intros HU (_ & _ & G & I) (_ & _ & G' & I') E.
  assert (J : forall m i, (m < N)%nat -> (i < d)%nat -> f_jac M' (ix m) i = csum N (fun n => cmul (U m n) (f_jac M (ix n) i))).
  { intros m i Hm Hi. rewrite (surjective_pairing (f_jac M' (ix m) i)). unfold csum. f_equal.
    - apply (has_grad_unique d (fun y => fst (mo' y (ix m))) x _ (fun i => rsum N (fun k => fst (cmul (U m k) (f_jac M (ix k) i)))) (G' (ix m))); [|exact Hi].
      apply (small_ext d) with (e := fun h => rsum N (fun k => fst (cmul (U m k) (mo (vadd x h) (ix k)))) - rsum N (fun k => fst (cmul (U m k) (mo x (ix k))))
         - dot d (fun i => rsum N (fun k => fst (cmul (U m k) (f_jac M (ix k) i)))) h).
      { intros h. rewrite (E (vadd x h) m Hm), (E x m Hm). reflexivity. }
      apply (has_grad_rsum d N (fun k y => fst (cmul (U m k) (mo y (ix k)))) x (fun k i => fst (cmul (U m k) (f_jac M (ix k) i)))).
      intros k _. unfold cmul. cbn [fst snd].
      eapply (small_ext d); [|exact (has_grad_add d _ _ x _ _ (has_grad_scal d (fst (U m k)) _ x _ (G (ix k))) (has_grad_scal d (- snd (U m k)) _ x _ (I (ix k))))].
      intros h. cbn. unfold Rminus. f_equal; [ring|]. f_equal. apply rsum_ext. intros l _. unfold vadd, vscal. ring.
    - apply (has_grad_unique d (fun y => snd (mo' y (ix m))) x _ (fun i => rsum N (fun k => snd (cmul (U m k) (f_jac M (ix k) i)))) (I' (ix m))); [|exact Hi].
      apply (small_ext d) with (e := fun h => rsum N (fun k => snd (cmul (U m k) (mo (vadd x h) (ix k)))) - rsum N (fun k => snd (cmul (U m k) (mo x (ix k))))
         - dot d (fun i => rsum N (fun k => snd (cmul (U m k) (f_jac M (ix k) i)))) h).
      { intros h. rewrite (E (vadd x h) m Hm), (E x m Hm). reflexivity. }
      apply (has_grad_rsum d N (fun k y => snd (cmul (U m k) (mo y (ix k)))) x (fun k i => snd (cmul (U m k) (f_jac M (ix k) i)))).
      intros k _. unfold cmul. cbn [fst snd].
      eapply (has_grad_ext d); [|exact (has_grad_add d _ _ x _ _ (has_grad_scal d (fst (U m k)) _ x _ (I (ix k))) (has_grad_scal d (snd (U m k)) _ x _ (G (ix k))))].
      intros l _. unfold vadd, vscal. ring. }
  unfold orbital_tau. f_equal. rewrite rsum_swap, (rsum_swap N d). apply rsum_ext. intros i Hi.
  rewrite <- (unitary_norm N U (fun n => f_jac M (ix n) i) HU). apply rsum_ext. intros m Hm. rewrite J by assumption. reflexivity.
Qed.

(** A phase on each orbital is such a mixing. *)
Definition phases (theta : nat -> R) (m n : nat) : complex :=
  if Nat.eq_dec m n then (cos (theta n), sin (theta n)) else (0, 0).
Lemma phases_unitary N theta : unitary N (phases theta).
Proof.
  intros n k Hn Hk. unfold csum, cdelta. f_equal.
  - transitivity (rsum N (fun m => (if Nat.eq_dec m n then 1 else 0) * (if Nat.eq_dec n k then 1 else 0))).
    + apply rsum_ext. intros m _. unfold phases, cmul, conj. pose proof (sin2_cos2 (theta k)) as E. unfold Rsqr in E.
      destruct (Nat.eq_dec m n) as [->|], (Nat.eq_dec n k) as [->|]; try destruct (Nat.eq_dec m k); try destruct (Nat.eq_dec k k); try destruct (Nat.eq_dec n k);
        cbn [fst snd]; try congruence; lra.
    + apply (rsum_delta N n (fun _ => if Nat.eq_dec n k then 1 else 0) Hn).
  - rewrite <- (rsum_zero N). apply rsum_ext. intros m _. unfold phases, cmul, conj.
    destruct (Nat.eq_dec m n) as [->|]; [destruct (Nat.eq_dec n k) as [->|]|destruct (Nat.eq_dec m k)]; cbn [fst snd]; lra.
Qed.
Theorem tau_phase d N theta sh (ix : nat -> list nat) mo mo' x M M' :
  at_point_c d sh mo x M -> at_point_c d sh mo' x M' ->
  (forall y m, (m < N)%nat -> mo' y (ix m) = cmul (cos (theta m), sin (theta m)) (mo y (ix m))) ->
  orbital_tau d N (fun n => f_jac M (ix n)) = orbital_tau d N (fun n => f_jac M' (ix n)).
Proof.
  intros H H' E. apply (tau_unitary d N (phases theta) sh ix mo mo' x M M' (phases_unitary N theta) H H').
  intros y m Hm. rewrite (E y m Hm). unfold csum, cmul. cbn [fst snd]. f_equal.
  - rewrite <- (rsum_delta N m (fun k => cos (theta k) * fst (mo y (ix k)) - sin (theta k) * snd (mo y (ix k))) Hm).
    apply rsum_ext. intros k _. unfold phases. destruct (Nat.eq_dec k m), (Nat.eq_dec m k); cbn [fst snd]; try congruence; lra.
  - rewrite <- (rsum_delta N m (fun k => cos (theta k) * snd (mo y (ix k)) + sin (theta k) * fst (mo y (ix k))) Hm).
    apply rsum_ext. intros k _. unfold phases. destruct (Nat.eq_dec k m), (Nat.eq_dec m k); cbn [fst snd]; try congruence; lra.
Qed.

(** The von Weizsaecker bound. *)
Lemma cs_pair p q A B C D : 0 <= A -> 0 <= B -> 0 <= C -> 0 <= D -> p * p <= A * B -> q * q <= C * D ->
  (p + q) * (p + q) <= (A + C) * (B + D).
Proof.
  intros HA HB HC HD Hp Hq.
  assert (Hpq : (p * q) * (p * q) <= (A * D) * (C * B)).
  { replace (p * q * (p * q)) with ((p * p) * (q * q)) by ring. replace (A * D * (C * B)) with ((A * B) * (C * D)) by ring.
    apply Rmult_le_compat; try assumption; nra. }
  assert (H2 : 2 * (p * q) <= A * D + C * B).
  { assert (HX : 0 <= A * D) by (apply Rmult_le_pos; assumption). assert (HY : 0 <= C * B) by (apply Rmult_le_pos; assumption).
    set (X := A * D) in *. set (Y := C * B) in *. set (z := p * q) in *.
    destruct (Rle_dec z 0) as [Hz|Hz]; [nra|]. apply Rnot_le_lt in Hz.
    apply Rsqr_incr_0; unfold Rsqr; [|lra|lra]. pose proof (Rle_0_sqr (X - Y)) as Hs. unfold Rsqr in Hs. nra. }
  nra.
Qed.
Theorem von_weizsaecker d N sh sh' (ix : nat -> list nat) s rho mo x F M :
  at_point d sh rho x F -> at_point_c d sh' mo x M ->
  (forall y, rho y s = rsum N (fun n => modsq (mo y (ix n)))) ->
  dot d (f_jac F s) (f_jac F s) <= 8 * f_val F s * orbital_tau d N (fun n => f_jac M (ix n)).
Proof.
  intros (_ & V & G & _) (_ & VM & GM & IM) E.
  set (a := fun n => fst (mo x (ix n))). set (b := fun n => snd (mo x (ix n))).
  set (da := fun n i => fst (f_jac M (ix n) i)). set (db := fun n i => snd (f_jac M (ix n) i)).
  assert (J : forall i, (i < d)%nat -> f_jac F s i = 2 * (rsum N (fun n => a n * da n i) + rsum N (fun n => b n * db n i))).
  { intros i Hi. rewrite <- rsum_plus, <- rsum_scal.
    apply (has_grad_unique d (fun y => rho y s) x _ (fun i => rsum N (fun n => 2 * (a n * da n i + b n * db n i))) (G s)); [|exact Hi].
    apply (small_ext d) with (e := fun h => rsum N (fun n => modsq (mo (vadd x h) (ix n))) - rsum N (fun n => modsq (mo x (ix n)))
        - dot d (fun i => rsum N (fun n => 2 * (a n * da n i + b n * db n i))) h).
    { intros h. rewrite !E. reflexivity. }
    apply (has_grad_rsum d N (fun n y => modsq (mo y (ix n))) x (fun n i => 2 * (a n * da n i + b n * db n i))). intros n _.
    unfold modsq.
    eapply (has_grad_ext d); [|exact (has_grad_add d _ _ x _ _ (has_grad_mult d _ _ x _ _ (GM (ix n)) (GM (ix n))) (has_grad_mult d _ _ x _ _ (IM (ix n)) (IM (ix n))))].
    intros l _. unfold vadd, a, b, da, db. ring. }
  set (rr := rsum N (fun n => a n * a n) + rsum N (fun n => b n * b n)).
  assert (Hv : f_val F s = rr).
  { rewrite V, E. unfold rr. rewrite <- rsum_plus. reflexivity. }
  assert (Ht : 2 * orbital_tau d N (fun n => f_jac M (ix n)) = rsum d (fun i => rsum N (fun n => da n i * da n i) + rsum N (fun n => db n i * db n i))).
  { unfold orbital_tau. rewrite rsum_swap. replace (2 * (rsum d (fun j => rsum N (fun i => conj_re (f_jac M (ix i) j))) / 2))
      with (rsum d (fun j => rsum N (fun i => conj_re (f_jac M (ix i) j)))) by field.
    apply rsum_ext. intros i _. rewrite <- rsum_plus. apply rsum_ext. intros n _. unfold conj_re, da, db. ring. }
  replace (8 * f_val F s * orbital_tau d N (fun n => f_jac M (ix n))) with
    (4 * f_val F s * (2 * orbital_tau d N (fun n => f_jac M (ix n)))) by ring.
  rewrite Ht, Hv, <- rsum_scal. unfold dot. apply rsum_le. intros i Hi. rewrite (J i Hi).
  pose proof (cs_pair (rsum N (fun n => a n * da n i)) (rsum N (fun n => b n * db n i))
    (rsum N (fun n => a n * a n)) (rsum N (fun n => da n i * da n i)) (rsum N (fun n => b n * b n)) (rsum N (fun n => db n i * db n i))
    (dot_self_nonneg N a) (dot_self_nonneg N (fun n => da n i)) (dot_self_nonneg N b) (dot_self_nonneg N (fun n => db n i))
    (cauchy_schwarz N a (fun n => da n i)) (cauchy_schwarz N b (fun n => db n i))) as H.
  fold rr in H. nra.
Qed.
