(** C01-C04 decided for every shipped functional: the lists of Fam.v, for which the statement holds,
    and those of RunPrecise.v, for which it fails, cover the library. *)
From Coq Require Import List Bool.
From Verif Require Import Bytes Syntax Parser PostProcess Src Ast Semantics Families Refute RunRefute RunPrecise Sloc Fam Free Inputs FamInputs DecidedIndex.
Import ListNotations.

(** The parts of a name between underscores; exchange functionals have a part "x" and kinetic ones a
    part "k" (the file names of /repo/gen_repo/impl/prebuilt/pol). *)
Fixpoint parts (cur s : bstr) : list bstr :=
  match s with
  | bnil => [brev cur]
  | bcons c s => if Byte.eqb c (ch "_") then brev cur :: parts bnil s else parts (bcons c cur) s
  end.
Definition exchange (f : source) : bool := mem "x"%b (parts bnil (src_name f)).
Definition kinetic (f : source) : bool := mem "k"%b (parts bnil (src_name f)).

Definition at_places {A} (d : A) (l : list A) (ix : list nat) : list A := map (fun i => nth i l d) ix.
Lemma at_places_in {A} (d : A) l ix x : In d l -> In x (at_places d l ix) -> In x l.
Proof.
  intros D H. unfold at_places in H. apply in_map_iff in H. destruct H as [i [<- _]].
  destruct (PeanoNat.Nat.lt_ge_cases i (length l)); [apply nth_In; assumption|rewrite nth_overflow by assumption; exact D].
Qed.
Lemma closed_shell_places : all_sources = at_places f_lda_x (closed_shell_functionals ++ closed_shell_exceptions) closed_shell_index.
Proof. reflexivity. Qed.
Lemma swap_places : all_sources = at_places f_lda_x (swap_functionals ++ swap_exceptions ++ [f_mgga_x_tb09]) swap_index.
Proof. reflexivity. Qed.
Lemma scaling_x_places : all_sources = at_places f_lda_x
  (scale1_functionals ++ scaling_exceptions ++ [f_lda_x_1d_exponential; f_lda_x_1d_soft] ++ scaling_x_others) scaling_x_index.
Proof. reflexivity. Qed.
Lemma scaling_k_places : all_sources = at_places f_lda_x (scale2_functionals ++ other_scaling_k_functionals ++ scaling_k_others) scaling_k_index.
Proof. reflexivity. Qed.
Lemma spin_places : all_sources = at_places f_lda_x
  ((spin_functionals ++ [f_lda_x_sloc]) ++ spin_exceptions ++ [f_mgga_x_tb09] ++ spin_others) spin_index.
Proof. reflexivity. Qed.
Lemma scaling_x_others_run : forallb (fun f => negb (exchange f)) scaling_x_others = true.
Proof. vm_cast_no_check (eq_refl true). Qed.
Lemma scaling_k_others_run : forallb (fun f => negb (kinetic f)) scaling_k_others = true.
Proof. vm_cast_no_check (eq_refl true). Qed.
Lemma spin_others_run : forallb (fun f => negb (exchange f || kinetic f)) spin_others = true.
Proof. vm_cast_no_check (eq_refl true). Qed.

(** Of the functionals selected by [sel], [P] holds exactly for those not in [exceptions]; those in
    [missing] raise a NameError on every call. *)
Definition decided (sel : source -> bool) (P : source -> Prop) (exceptions missing : list source) : Prop :=
  Forall (fun f => sel f = true -> (In f missing /\ always_name_error f) \/ (P f <-> ~ In f exceptions)) all_sources.
Lemma decide sel (P D : source -> Prop) good bad missing others ix :
  all_sources = at_places f_lda_x (good ++ bad ++ missing ++ others) ix -> In f_lda_x (good ++ bad ++ missing ++ others) ->
  Forall P good -> Forall D bad -> (forall f, D f -> ~ P f) -> Forall always_name_error missing ->
  forallb (fun f => negb (sel f)) others = true -> decided sel P bad missing.
Proof.
  intros E X G B N M O. unfold decided. apply Forall_forall. intros f H S.
  assert (K : forall f, In f bad -> ~ P f) by (intros g Hg; apply N; rewrite Forall_forall in B; exact (B g Hg)).
  assert (J : In f (good ++ bad ++ missing ++ others)) by (apply (at_places_in _ _ ix f X); rewrite <- E; exact H).
  rewrite Forall_forall in G. rewrite Forall_forall in M. rewrite forallb_forall in O.
  apply in_app_or in J. destruct J as [J|J]; [right|].
  { split; [intros Q R; exact (K f R Q)|intros _; exact (G f J)]. }
  apply in_app_or in J. destruct J as [J|J]; [right|].
  { split; [intros Q R; exact (K f R Q)|intros R; contradiction (R J)]. }
  apply in_app_or in J. destruct J as [J|J]; [left; exact (conj J (M f J))|].
  specialize (O f J). cbv beta in O. rewrite S in O. discriminate O.
Qed.
Lemma name_error f : In f all_sources -> mem (src_name f) name_error_names = true -> always_name_error f.
Proof.
  intros H M. pose proof exceptions_holds as E. rewrite Forall_forall in E. specialize (E f H). unfold no_exception in E. rewrite M in E. exact E.
Qed.
Ltac here := repeat first [left; reflexivity | right].
Lemma tb09_name_error : always_name_error f_mgga_x_tb09.
Proof. apply name_error; [here|vm_compute; reflexivity]. Qed.
Lemma exponential_name_error : always_name_error f_lda_x_1d_exponential.
Proof. apply name_error; [here|vm_compute; reflexivity]. Qed.
Lemma soft_name_error : always_name_error f_lda_x_1d_soft.
Proof. apply name_error; [here|vm_compute; reflexivity]. Qed.

Definition any (f : source) : bool := true.
Definition separable (f : source) : bool := exchange f || kinetic f.
Lemma closed_shell_decided : decided any closed_shell_agrees closed_shell_exceptions [].
Proof.
  refine (decide any _ _ closed_shell_functionals closed_shell_exceptions [] [] closed_shell_index _ _ closed_shell_holds closed_shell_differ differs_refutes (Forall_nil _) eq_refl).
  - rewrite !app_nil_r. exact closed_shell_places.
  - cbv [app]. here.
Qed.
Lemma swap_decided : decided any spin_symmetric swap_exceptions [f_mgga_x_tb09].
Proof.
  refine (decide any _ _ swap_functionals swap_exceptions [f_mgga_x_tb09] [] swap_index _ _ swap_holds swap_differ asymmetric_refutes _ eq_refl).
  - rewrite !app_nil_r. exact swap_places.
  - here.
  - constructor; [exact tb09_name_error|constructor].
Qed.
Lemma scaling_x_decided : decided exchange (scales_with 1) scaling_exceptions [f_lda_x_1d_exponential; f_lda_x_1d_soft].
Proof.
  refine (decide _ _ _ scale1_functionals scaling_exceptions [f_lda_x_1d_exponential; f_lda_x_1d_soft] scaling_x_others scaling_x_index
    scaling_x_places _ scale1_holds scaling_differ (otherwise_refutes 1) _ scaling_x_others_run).
  - here.
  - constructor; [exact exponential_name_error|constructor; [exact soft_name_error|constructor]].
Qed.
Lemma scaling_k_decided : decided kinetic (scales_with 2) other_scaling_k_functionals [].
Proof.
  refine (decide _ _ _ scale2_functionals other_scaling_k_functionals [] scaling_k_others scaling_k_index
    scaling_k_places _ scale2_holds other_scaling_kinetic (otherwise_refutes 2) (Forall_nil _) scaling_k_others_run).
  here.
Qed.
Lemma spin_decided : decided separable spin_scales spin_exceptions [f_mgga_x_tb09].
Proof.
  refine (decide _ _ _ (spin_functionals ++ [f_lda_x_sloc]) spin_exceptions [f_mgga_x_tb09] spin_others spin_index
    spin_places _ _ spin_differ spin_otherwise_refutes _ spin_others_run).
  - here.
  - apply Forall_app. split; [exact spin_holds|constructor; [exact sloc_spin|constructor]].
  - constructor; [exact tb09_name_error|constructor].
Qed.
Lemma closed_shell_exact : Forall (fun f => closed_shell_agrees f <-> ~ In f closed_shell_exceptions) all_sources.
Proof.
  pose proof closed_shell_decided as H. unfold decided in H. rewrite Forall_forall in H |- *. intros f Hf.
  destruct (H f Hf eq_refl) as [[[] _]|E]. exact E.
Qed.
Lemma closed_shell_refuted : Forall (fun f => closed_shell_differs f /\ ~ closed_shell_agrees f) closed_shell_exceptions.
Proof. exact (Forall_also _ _ _ differs_refutes closed_shell_differ). Qed.
