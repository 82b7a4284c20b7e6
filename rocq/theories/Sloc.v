(** Spin scaling of lda_x_sloc (/repo/gen_repo/impl/prebuilt/{pol,unpol}/lda_x_sloc.py), whose exponent
    [b] is a parameter: (n0 + n1)^b (1 + z)^(b+1) (n0 + n1) = (2 n0)^(b+1). *)
From Coq Require Import Reals List QArith Lra.
From Verif Require Import Bytes Syntax Parser PostProcess Src Ast Semantics Families.
Import ListNotations.
Open Scope R_scope.

Ltac run_program c H :=
  let p := eval vm_compute in c in change c with p in H; unfold result in H;
  lazy -[Q2R pypow cmp_sem p_r0 p_r1 u_r Rplus Rminus Rmult Rdiv Ropp Req_EM_T IZR] in H.
Lemma Q2R_one' : Q2R 1 = 1. Proof. unfold Q2R. cbn. lra. Qed.
Lemma Q2R_two' : Q2R 2 = 2. Proof. unfold Q2R. cbn. lra. Qed.
Lemma pypow_pos x y : 0 < x -> pypow x y = Some (Rpower x y).
Proof. intros H. unfold pypow. destruct (Rlt_dec 0 x); [reflexivity|contradiction]. Qed.

Lemma sloc_pol I A a v : zeta_ok A -> pol_ok a -> not_clipped A a -> pol f_lda_x_sloc I A a = Some v ->
  exists k b, A "params.a"%b = Some k /\ A "params.b"%b = Some b /\ b + 1 <> 0 /\
  let n := p_r0 a + p_r1 a in
  v = - k / (b + 1) * Rpower n b * (Rpower (1 + (p_r0 a - p_r1 a) / n) (b + 1) + Rpower (1 - (p_r0 a - p_r1 a) / n) (b + 1)) / 2.
Proof.
  intros (z & Ez & Hz) (H0 & H1 & _) Hc H. destruct (Hc z Ez) as [C0 C1]. cbv zeta.
  set (n := p_r0 a + p_r1 a) in *. assert (Hn : 0 < n) by (unfold n; lra).
  assert (F0 : 1 + (p_r0 a - p_r1 a) / n = 2 * p_r0 a / n) by (unfold n; field; fold n; lra).
  assert (F1 : 1 - (p_r0 a - p_r1 a) / n = 2 * p_r1 a / n) by (unfold n; field; fold n; lra).
  change f_lda_x_sloc with (c_src a_lda_x_sloc) in H. rewrite result_pol in H. run_program (c_pol a_lda_x_sloc) H.
  fold n in H.
  rewrite Ez in H. destruct (A "params.a"%b) as [k|]; [|discriminate]. destruct (A "params.b"%b) as [b|]; [|discriminate].
  cbv beta iota in H. rewrite Q2R_one', Q2R_two' in H. rewrite (pypow_pos n b Hn) in H.
  destruct (Req_EM_T (b + 1) 0) as [|Nb]; [discriminate|]. destruct (Req_EM_T n 0); [lra|]. cbv beta iota in H.
  rewrite F0, F1 in *. unfold cmp_sem, Rleb in H.
  destruct (Rle_dec (2 * p_r0 a / n) z); [lra|]. destruct (Rle_dec (2 * p_r1 a / n) z); [lra|].
  rewrite !pypow_pos in H by lra. destruct (Req_EM_T 2 0); [lra|]. injection H as <-.
  exists k, b. repeat split; try reflexivity. exact Nb.
Qed.
Lemma sloc_unpol I A u v : zeta_ok A -> 0 < u_r u -> unpol f_lda_x_sloc I A u = Some v ->
  exists k b, A "params.a"%b = Some k /\ A "params.b"%b = Some b /\ b + 1 <> 0 /\ v = - k / (b + 1) * Rpower (u_r u) b.
Proof.
  intros (z & Ez & Hz) Hu H.
  change f_lda_x_sloc with (c_src a_lda_x_sloc) in H. rewrite result_unpol in H. run_program (c_unpol a_lda_x_sloc) H.
  rewrite Ez in H. destruct (A "params.a"%b) as [k|]; [|discriminate]. destruct (A "params.b"%b) as [b|]; [|discriminate].
  cbv beta iota in H. rewrite Q2R_one' in H. rewrite (pypow_pos _ b Hu) in H.
  destruct (Req_EM_T (b + 1) 0) as [|Nb]; [discriminate|]. unfold cmp_sem, Rleb in H. destruct (Rle_dec 1 z); [lra|]. injection H as <-.
  exists k, b. repeat split; try reflexivity; [exact Nb|ring].
Qed.
Lemma sloc_half n r b : 0 < n -> 0 < r -> n * (Rpower n b * Rpower (2 * r / n) (b + 1)) = 2 * r * Rpower (2 * r) b.
Proof.
  intros Hn Hr. rewrite <- (Rpower_1 n) at 1 by exact Hn. rewrite <- Rmult_assoc, <- Rpower_plus, (Rplus_comm 1 b).
  rewrite Rpower_mult_distr; [|exact Hn|apply Rdiv_lt_0_compat; lra].
  replace (n * (2 * r / n)) with (2 * r) by (field; lra). rewrite Rpower_plus, Rpower_1 by lra. ring.
Qed.
Theorem sloc_spin : spin_scales f_lda_x_sloc.
Proof.
  intros I A a HA _ Ha Hc e u d He Hu Hd.
  destruct (sloc_pol _ _ _ _ HA Ha Hc He) as (k & b & Ek & Eb & Nb & ->).
  destruct Ha as (H0 & H1 & _).
  assert (U0 : 0 < u_r (spin_up a)) by (cbn [spin_up u_r]; lra). assert (U1 : 0 < u_r (spin_down a)) by (cbn [spin_down u_r]; lra).
  destruct (sloc_unpol _ _ _ _ HA U0 Hu) as (k' & b' & Ek' & Eb' & _ & ->). rewrite Ek in Ek'. rewrite Eb in Eb'. injection Ek' as <-. injection Eb' as <-.
  destruct (sloc_unpol _ _ _ _ HA U1 Hd) as (k' & b' & Ek' & Eb' & _ & ->). rewrite Ek in Ek'. rewrite Eb in Eb'. injection Ek' as <-. injection Eb' as <-.
  cbn [spin_up spin_down u_r]. set (n := p_r0 a + p_r1 a). assert (Hn : 0 < n) by (unfold n; lra).
  replace (1 + (p_r0 a - p_r1 a) / n) with (2 * p_r0 a / n) by (unfold n; field; fold n; lra).
  replace (1 - (p_r0 a - p_r1 a) / n) with (2 * p_r1 a / n) by (unfold n; field; fold n; lra).
  pose proof (sloc_half n (p_r0 a) b Hn H0) as E0. pose proof (sloc_half n (p_r1 a) b Hn H1) as E1.
  transitivity (- k / (b + 1) * (n * (Rpower n b * Rpower (2 * p_r0 a / n) (b + 1)) + n * (Rpower n b * Rpower (2 * p_r1 a / n) (b + 1))) / 2); [field; exact Nb|].
  rewrite E0, E1. field. exact Nb.
Qed.
