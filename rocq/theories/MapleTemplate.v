(** The Maple program the generator writes around a kernel f
    (/repo/gen_repo/impl/maple_template.jinja:15-59, rendered by gen_maple.py:18-35).

    The kernel is an arbitrary function of the reduced variables; [r_ws] and DIMENSIONS come from
    libxc's util.mpl and are arbitrary (DIMENSIONS positive).  Powers and roots are those of
    positive reals.  Not modelled: Maple's code generation. *)
From Coq Require Import Reals Lra List Bool.
From Verif Require Import Bytes Syntax Impl Records.
Import ListNotations.
Open Scope R_scope.

Section Template.
Variables (r_ws : R -> R) (D : R).

(** maple_template.jinja:15-23 *)
Definition dens (r0 r1 : R) := r0 + r1.
Definition zeta (r0 r1 : R) := (r0 - r1) / (r0 + r1).
Definition xs0 (r0 r1 sigma0 sigma2 : R) := sqrt sigma0 / Rpower r0 (1 + 1 / D).
Definition xs1 (r0 r1 sigma0 sigma2 : R) := sqrt sigma2 / Rpower r1 (1 + 1 / D).
Definition xt (r0 r1 sigma0 sigma1 sigma2 : R) := sqrt (sigma0 + 2 * sigma1 + sigma2) / Rpower (r0 + r1) (1 + 1 / D).
Definition u0 (r0 r1 l0 l1 : R) := l0 / Rpower r0 (1 + 2 / D).
Definition u1 (r0 r1 l0 l1 : R) := l1 / Rpower r1 (1 + 2 / D).
Definition tt0 (r0 r1 tau0 tau1 : R) := tau0 / Rpower r0 (1 + 2 / D).
Definition tt1 (r0 r1 tau0 tau1 : R) := tau1 / Rpower r1 (1 + 2 / D).

(** Kernels of the three families. *)
Definition lda_kernel := R -> R -> R.                                     (* rs, z *)
Definition gga_kernel := R -> R -> R -> R -> R -> R.                      (* rs, z, xt, xs0, xs1 *)
Definition mgga_kernel := R -> R -> R -> R -> R -> R -> R -> R -> R -> R. (* ..., u0, u1, t0, t1 *)

(** maple_template.jinja:27-30 *)
Definition mgga_pol (f : mgga_kernel) (r0 r1 s0 s1 s2 l0 l1 tau0 tau1 : R) : R :=
  f (r_ws (dens r0 r1)) (zeta r0 r1) (xt r0 r1 s0 s1 s2) (xs0 r0 r1 s0 s2) (xs1 r0 r1 s0 s2)
    (u0 r0 r1 l0 l1) (u1 r0 r1 l0 l1) (tt0 r0 r1 tau0 tau1) (tt1 r0 r1 tau0 tau1).
Definition mgga_unpol (f : mgga_kernel) (r0 s0 l0 tau0 : R) : R :=
  mgga_pol f (r0 / 2) (r0 / 2) (s0 / 4) (s0 / 4) (s0 / 4) (l0 / 2) (l0 / 2) (tau0 / 2) (tau0 / 2).
(** maple_template.jinja:38-42 *)
Definition gga_pol (f : gga_kernel) (r0 r1 s0 s1 s2 : R) : R :=
  f (r_ws (dens r0 r1)) (zeta r0 r1) (xt r0 r1 s0 s1 s2) (xs0 r0 r1 s0 s2) (xs1 r0 r1 s0 s2).
Definition gga_unpol (f : gga_kernel) (r0 s0 : R) : R := gga_pol f (r0 / 2) (r0 / 2) (s0 / 4) (s0 / 4) (s0 / 4).
(** maple_template.jinja:51-52 *)
Definition lda_pol (f : lda_kernel) (r0 r1 : R) : R := f (r_ws (dens r0 r1)) (zeta r0 r1).
Definition lda_unpol (f : lda_kernel) (r0 : R) : R := lda_pol f (r0 / 2) (r0 / 2).

(** ** The closed-shell program in terms of the total density *)
(** Reduced gradient, Laplacian and kinetic energy density of a density n in D dimensions. *)
Definition reduced_grad (n s : R) := sqrt s / Rpower n (1 + 1 / D).
Definition reduced_2 (n l : R) := l / Rpower n (1 + 2 / D).

Lemma Rpower_div n x : 0 < n -> Rpower (n / 2) x = Rpower n x / Rpower 2 x.
Proof.
  intros H. unfold Rpower, Rdiv. rewrite ln_mult by lra. rewrite ln_Rinv by lra. rewrite Rmult_plus_distr_l, exp_plus, Ropp_mult_distr_r_reverse, exp_Ropp. reflexivity.
Qed.
Lemma half_grad n s : 0 < n -> 0 <= s -> sqrt (s / 4) / Rpower (n / 2) (1 + 1 / D) = Rpower 2 (1 / D) * reduced_grad n s.
Proof.
  intros Hn Hs. unfold reduced_grad. rewrite Rpower_div by exact Hn. replace (sqrt (s / 4)) with (sqrt s * (/ 2))
    by (unfold Rdiv; rewrite sqrt_mult_alt by exact Hs; f_equal; replace (/ 4) with ((/ 2) * (/ 2)) by lra; rewrite sqrt_square; lra).
  rewrite (Rpower_plus 1 (1 / D) 2), Rpower_1 by lra.
  assert (0 < Rpower n (1 + 1 / D)) by apply exp_pos. assert (0 < Rpower 2 (1 / D)) by apply exp_pos. field. split; lra.
Qed.
Lemma half_2 n l : 0 < n -> (l / 2) / Rpower (n / 2) (1 + 2 / D) = Rpower 2 (2 / D) * reduced_2 n l.
Proof.
  intros Hn. unfold reduced_2. rewrite Rpower_div by exact Hn. rewrite (Rpower_plus 1 (2 / D) 2), Rpower_1 by lra.
  assert (0 < Rpower n (1 + 2 / D)) by apply exp_pos. assert (0 < Rpower 2 (2 / D)) by apply exp_pos. field. split; lra.
Qed.
Lemma half_zeta n : n <> 0 -> zeta (n / 2) (n / 2) = 0. Proof. intros H. unfold zeta. field. lra. Qed.
Lemma half_dens n : dens (n / 2) (n / 2) = n. Proof. unfold dens. field. Qed.
Lemma half_xt n s : xt (n / 2) (n / 2) (s / 4) (s / 4) (s / 4) = reduced_grad n s.
Proof. unfold xt, reduced_grad. replace (s / 4 + 2 * (s / 4) + s / 4) with s by field. replace (n / 2 + n / 2) with n by field. reflexivity. Qed.

Theorem lda_unpol_eq f n : 0 < n -> lda_unpol f n = f (r_ws n) 0.
Proof. intros H. unfold lda_unpol, lda_pol. rewrite half_dens, half_zeta by lra. reflexivity. Qed.
Theorem gga_unpol_eq f n s : 0 < n -> 0 <= s ->
  gga_unpol f n s = f (r_ws n) 0 (reduced_grad n s) (Rpower 2 (1 / D) * reduced_grad n s) (Rpower 2 (1 / D) * reduced_grad n s).
Proof.
  intros Hn Hs. unfold gga_unpol, gga_pol. rewrite half_dens, half_zeta, half_xt by lra. unfold xs0, xs1. rewrite half_grad by assumption. reflexivity.
Qed.
Theorem mgga_unpol_eq f n s l tau : 0 < n -> 0 <= s ->
  mgga_unpol f n s l tau = f (r_ws n) 0 (reduced_grad n s) (Rpower 2 (1 / D) * reduced_grad n s) (Rpower 2 (1 / D) * reduced_grad n s)
    (Rpower 2 (2 / D) * reduced_2 n l) (Rpower 2 (2 / D) * reduced_2 n l) (Rpower 2 (2 / D) * reduced_2 n tau) (Rpower 2 (2 / D) * reduced_2 n tau).
Proof.
  intros Hn Hs. unfold mgga_unpol, mgga_pol. rewrite half_dens, half_zeta, half_xt by lra. unfold xs0, xs1, u0, u1, tt0, tt1.
  rewrite half_grad, !half_2 by assumption. reflexivity.
Qed.

(** ** Spin symmetry *)
Definition lda_sym (f : lda_kernel) : Prop := forall rs z, f rs (- z) = f rs z.
Definition gga_sym (f : gga_kernel) : Prop := forall rs z t a b, f rs (- z) t b a = f rs z t a b.
Definition mgga_sym (f : mgga_kernel) : Prop := forall rs z t a b u v p q, f rs (- z) t b a v u q p = f rs z t a b u v p q.
Lemma dens_swap a b : dens b a = dens a b. Proof. unfold dens. ring. Qed.
Lemma zeta_swap a b : zeta b a = - zeta a b.
Proof. unfold zeta. rewrite (Rplus_comm b a). unfold Rdiv. rewrite Ropp_mult_distr_l. f_equal. ring. Qed.
Lemma xt_swap a b s t u : xt b a u t s = xt a b s t u.
Proof. unfold xt. rewrite (Rplus_comm b a). do 2 f_equal. ring. Qed.
Theorem lda_pol_sym f a b : lda_sym f -> lda_pol f b a = lda_pol f a b.
Proof. intros H. unfold lda_pol. rewrite dens_swap, zeta_swap. apply H. Qed.
Theorem gga_pol_sym f a b s t u : gga_sym f -> gga_pol f b a u t s = gga_pol f a b s t u.
Proof. intros H. unfold gga_pol. rewrite dens_swap, zeta_swap, xt_swap. apply H. Qed.
Theorem mgga_pol_sym f a b s t u l m p q : mgga_sym f -> mgga_pol f b a u t s m l q p = mgga_pol f a b s t u l m p q.
Proof. intros H. unfold mgga_pol. rewrite dens_swap, zeta_swap, xt_swap. apply H. Qed.
(** ** What the polarised program gives to the kernel *)
(** A kernel of one spin channel sees that channel only: it has the value of the closed-shell
    program on the density with twice that channel. *)
Theorem gga_channels (f : R -> R) r0 r1 s0 s1 s2 :
  gga_pol (fun _ _ _ x _ => f x) r0 r1 s0 s1 s2 = gga_unpol (fun _ _ _ x _ => f x) (2 * r0) (4 * s0) /\
  gga_pol (fun _ _ _ _ y => f y) r0 r1 s0 s1 s2 = gga_unpol (fun _ _ _ _ y => f y) (2 * r1) (4 * s2).
Proof. unfold gga_unpol, gga_pol, xs0, xs1. split; do 2 f_equal; try (f_equal; field). Qed.
Theorem mgga_channels (f : R -> R -> R -> R) r0 r1 s0 s1 s2 l0 l1 tau0 tau1 :
  mgga_pol (fun _ _ _ x _ u _ t _ => f x u t) r0 r1 s0 s1 s2 l0 l1 tau0 tau1 =
    mgga_unpol (fun _ _ _ x _ u _ t _ => f x u t) (2 * r0) (4 * s0) (2 * l0) (2 * tau0) /\
  mgga_pol (fun _ _ _ _ y _ v _ w => f y v w) r0 r1 s0 s1 s2 l0 l1 tau0 tau1 =
    mgga_unpol (fun _ _ _ _ y _ v _ w => f y v w) (2 * r1) (4 * s2) (2 * l1) (2 * tau1).
Proof.
  unfold mgga_unpol, mgga_pol, xs0, xs1, u0, u1, tt0, tt1.
  assert (E : forall a, 2 * a / 2 = a) by (intros; field). assert (F : forall a, 4 * a / 4 = a) by (intros; field).
  rewrite !E, !F. split; reflexivity.
Qed.
(** A kernel of rs and xt sees the total density and its gradient; z is the relative polarisation. *)
Theorem gga_totals (f : R -> R -> R) r0 r1 s0 s1 s2 :
  gga_pol (fun rs _ t _ _ => f rs t) r0 r1 s0 s1 s2 = gga_unpol (fun rs _ t _ _ => f rs t) (r0 + r1) (s0 + 2 * s1 + s2).
Proof. unfold gga_unpol, gga_pol, dens, xt. f_equal; [f_equal; field|]. f_equal; [f_equal; field|f_equal; field]. Qed.
Theorem mgga_totals (f : R -> R -> R) r0 r1 s0 s1 s2 l0 l1 tau0 tau1 l tau :
  mgga_pol (fun rs _ t _ _ _ _ _ _ => f rs t) r0 r1 s0 s1 s2 l0 l1 tau0 tau1 =
  mgga_unpol (fun rs _ t _ _ _ _ _ _ => f rs t) (r0 + r1) (s0 + 2 * s1 + s2) l tau.
Proof. unfold mgga_unpol, mgga_pol, dens, xt. f_equal; [f_equal; field|]. f_equal; [f_equal; field|f_equal; field]. Qed.
Theorem lda_totals (f : R -> R) r0 r1 : lda_pol (fun rs _ => f rs) r0 r1 = lda_unpol (fun rs _ => f rs) (r0 + r1).
Proof. unfold lda_unpol, lda_pol, dens. do 2 f_equal. field. Qed.
Theorem polarisation r0 r1 s0 s1 s2 l0 l1 tau0 tau1 : r0 + r1 <> 0 ->
  (r0 + r1) * lda_pol (fun _ z => z) r0 r1 = r0 - r1 /\
  (r0 + r1) * gga_pol (fun _ z _ _ _ => z) r0 r1 s0 s1 s2 = r0 - r1 /\
  (r0 + r1) * mgga_pol (fun _ z _ _ _ _ _ _ _ => z) r0 r1 s0 s1 s2 l0 l1 tau0 tau1 = r0 - r1.
Proof. intros H. unfold lda_pol, gga_pol, mgga_pol, zeta. repeat split; field; exact H. Qed.
End Template.

(** ** Coordinate scaling in three dimensions *)
(** util.mpl: r_ws := n -> (RS_FACTOR/n^(1/DIMENSIONS)). *)
Lemma Rpower_scale g n x k : 0 < g -> 0 < n -> Rpower (g ^ k * n) x = Rpower g (INR k * x) * Rpower n x.
Proof.
  intros Hg Hn. rewrite <- Rpower_mult_distr by (try apply pow_lt; assumption). rewrite <- (Rpower_pow k g Hg), Rpower_mult. reflexivity.
Qed.
Lemma sqrt_even g k : 0 < g -> sqrt (g ^ (2 * k)) = g ^ k.
Proof. intros H. rewrite pow_mult, <- (pow_mult g 2 k), Nat.mul_comm, pow_mult. apply sqrt_pow2. left. apply pow_lt, H. Qed.
Theorem reduced_grad_scales g n s : 0 < g -> 0 < n -> 0 <= s -> reduced_grad 3 (g ^ 3 * n) (g ^ 8 * s) = reduced_grad 3 n s.
Proof.
  intros Hg Hn Hs. unfold reduced_grad. rewrite Rpower_scale by assumption.
  replace (INR 3 * (1 + 1 / 3)) with (INR 4) by (cbn [INR]; lra). rewrite Rpower_pow by exact Hg.
  rewrite sqrt_mult_alt by (apply pow_le; lra). change 8%nat with (2 * 4)%nat. rewrite sqrt_even by exact Hg.
  assert (0 < g ^ 4) by (apply pow_lt, Hg). assert (0 < Rpower n (1 + 1 / 3)) by apply exp_pos. field. split; lra.
Qed.
Theorem reduced_2_scales g n l : 0 < g -> 0 < n -> reduced_2 3 (g ^ 3 * n) (g ^ 5 * l) = reduced_2 3 n l.
Proof.
  intros Hg Hn. unfold reduced_2. rewrite Rpower_scale by assumption.
  replace (INR 3 * (1 + 2 / 3)) with (INR 5) by (cbn [INR]; lra). rewrite Rpower_pow by exact Hg.
  assert (0 < g ^ 5) by (apply pow_lt, Hg). assert (0 < Rpower n (1 + 2 / 3)) by apply exp_pos. field. split; lra.
Qed.

(** ** Which program is written (gen_maple.py:19-35, maple_template.jinja:25-59) *)
(** The argument list of the last command of the program. *)
Definition maple_args (ty : bstr) (pol : bool) : res (list bstr) :=
  if beqb ty "mgga" then Ok (if pol then ["r0"; "r1"; "s0"; "s1"; "s2"; "l0"; "l1"; "tau0"; "tau1"] else ["r0"; "s0"; "l0"; "tau0"])%b
  else if beqb ty "gga" then Ok (if pol then ["r0"; "r1"; "s0"; "s1"; "s2"] else ["r0"; "s0"])%b
  else if beqb ty "lda" then Ok (if pol then ["r0"; "r1"] else ["r0"])%b
  else Ok [].
Definition gen_maple (basename : bstr) (pol : bool) : res (list bstr) := ty <- gen_maple_type basename;; maple_args ty pol.
Theorem gen_maple_args name pol : gen_maple name pol =
  match gen_maple_type name with
  | Ok ty => Ok (if beqb ty "lda" then (if pol then ["r0"; "r1"] else ["r0"])
                 else if beqb ty "gga" then (if pol then ["r0"; "r1"; "s0"; "s1"; "s2"] else ["r0"; "s0"])
                 else (if pol then ["r0"; "r1"; "s0"; "s1"; "s2"; "l0"; "l1"; "tau0"; "tau1"] else ["r0"; "s0"; "l0"; "tau0"]))%b
  | Err e => Err e
  end.
Proof.
  unfold gen_maple. assert (T : forall ty, gen_maple_type name = Ok ty -> ty = "lda"%b \/ ty = "gga"%b \/ ty = "mgga"%b).
  { intros ty. unfold gen_maple_type. destruct (bprefix "lda" name || bprefix "hyb_lda" name); [intros E; injection E as <-; auto|].
    destruct (bprefix "gga" name || bprefix "hyb_gga" name); [intros E; injection E as <-; auto|].
    destruct (bprefix "mgga" name || bprefix "hyb_mgga" name); [intros E; injection E as <-; auto|discriminate]. }
  destruct (gen_maple_type name) as [ty|e]; [|reflexivity]. destruct (T ty eq_refl) as [-> | [-> | ->]]; reflexivity.
Qed.
Theorem template_symmetry (r_ws : R -> R) (D : R) :
  (forall f : lda_kernel, (forall rs z, f rs (- z) = f rs z) -> forall a b, lda_pol r_ws f b a = lda_pol r_ws f a b) /\
  (forall f : gga_kernel, (forall rs z t x y, f rs (- z) t y x = f rs z t x y) ->
     forall a b s t u, gga_pol r_ws D f b a u t s = gga_pol r_ws D f a b s t u) /\
  (forall f : mgga_kernel, (forall rs z t x y u v p q, f rs (- z) t y x v u q p = f rs z t x y u v p q) ->
     forall a b s t u l m p q, mgga_pol r_ws D f b a u t s m l q p = mgga_pol r_ws D f a b s t u l m p q).
Proof.
  repeat split; intros.
  - apply lda_pol_sym. exact H.
  - apply gga_pol_sym. exact H.
  - apply mgga_pol_sym. exact H.
Qed.
