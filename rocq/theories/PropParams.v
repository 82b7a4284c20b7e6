(** Properties of the generated constructors: C13, C14, C15, C26. *)
From Coq Require Import Reals List Bool ZArith Arith Strings.Byte Lia Lra.
From Verif Require Import Bytes Syntax Parser PostProcess Src Semantics Impl ImplThm Records RecordsThm RecordsThm2 RecordsThm3 RecordsThm4 Samples ExtParams ExtParamsThm ExtParamsThm2.
Import ListNotations.
Open Scope R_scope.

(** A functional with a plain parameter, an indexed one and one called lambda; the record shows
    the values libxc was given as the array c. *)
Definition sample_lib : lib_func := {|
  l_names := ["_kappa"; "_c[1]"; "lambda"]%b;
  l_defaults := [4 / 5; 7; 2];
  l_with := fun ns vs => XC "gga_x_pbe" None (Some 2%nat) None 3%nat sample_scalars ns [("c"%b, Arr [3%nat] vs)] None None |}.
Definition sample_rg : registries := {| registry := [(3%nat, ["c"%b])]; work_to_maple_name := [(2%nat, "gga_x_pbe"%b)] |}.
Definition sample_ctor : ctor := Ctor [("_kappa", 4 / 5); ("_c_1_", 7); ("lambda_", 2)]%b "gga_x_pbe" "gga".
Lemma sample_gen : gen_ctor sample_rg zeros sample_lib = Ok sample_ctor. Proof. reflexivity. Qed.
Lemma sample_arguments : params_listed sample_lib /\ arguments_ok sample_lib.
Proof.
  split; [reflexivity|]. split; [apply distinct_NoDup; reflexivity|]. split.
  - intros n [<-|[<-|[<-|[]]]]; reflexivity.
  - intros n [<-|[<-|[<-|[]]]] H; cbn in H; repeat (destruct H as [H|H]; [discriminate H|]); exact H.
Qed.
(** jax_xc.f(True, 1.5, lambda_=9.0) *)
Definition sample_pos : list (option R) := [Some (3 / 2)].
Definition sample_kw : list (bstr * option R) := [("lambda_"%b, Some 9)].
Lemma sample_call : call_ok sample_lib sample_pos sample_kw.
Proof.
  split; [cbn; lia|]. split; [apply distinct_NoDup; reflexivity|]. intros k [<-|[]]. exists 2%nat, "lambda"%b. repeat split. cbn. lia.
Qed.

(** ** C13 *)

(** A non-zero value passed explicitly is the one libxc is given for that parameter. *)
Theorem C13_explicit_values_partial :
  forall rg heap f c polarized pos kw, gen_ctor rg heap f = Ok c -> params_listed f -> arguments_ok f -> call_ok f pos kw ->
  exists vs, construct f c polarized pos kw = Ok (l_with f (if polarized then 2%nat else 1%nat) vs) /\
    forall i n x, nth_error (l_names f) i = Some n -> passed pos kw i n (Some x) -> x <> 0 -> nth_error vs i = Some x.
Proof. exact explicit_values. Qed.
Print Assumptions C13_explicit_values_partial.
(** An explicit zero is not honoured: libxc is given the default instead. *)
Theorem C13_explicit_zero_refuted :
  forall rg heap f c polarized pos kw, gen_ctor rg heap f = Ok c -> params_listed f -> arguments_ok f -> call_ok f pos kw ->
  exists vs, construct f c polarized pos kw = Ok (l_with f (if polarized then 2%nat else 1%nat) vs) /\
    forall i n d, nth_error (l_names f) i = Some n -> nth_error (l_defaults f) i = Some d -> passed pos kw i n (Some 0) ->
    nth_error vs i = Some d.
Proof. exact explicit_zero. Qed.
Print Assumptions C13_explicit_zero_refuted.
(** The same for the experimental constructors. *)
Theorem C13_experimental_explicit_values :
  forall rg heap f c polarized kw, gen_ctor rg heap f = Ok c -> params_listed f -> arguments_ok f -> call_ok f [] kw ->
  exists vs, exp_construct f c polarized kw = Ok (l_with f (if polarized then 2%nat else 1%nat) vs) /\ values_used f [] kw vs.
Proof. exact exp_construct_ok. Qed.
Print Assumptions C13_experimental_explicit_values.

Example C13_example : construct sample_lib sample_ctor true sample_pos sample_kw = Ok (l_with sample_lib 2 [3 / 2; 7; 9]).
Proof.
  destruct sample_arguments as [L A]. destruct (construct_ok _ _ _ _ true _ _ sample_gen L A sample_call) as (vs & E & N & V). rewrite E.
  do 2 f_equal. destruct vs as [|a [|b [|c [|]]]]; try discriminate.
  pose proof (proj1 (V 0%nat _ _ eq_refl eq_refl) (3 / 2) (or_introl eq_refl) ltac:(lra)) as E0. injection E0 as ->.
  assert (N1 : forall x, ~ passed sample_pos sample_kw 1 "_c[1]" (Some x)).
  { intros x [H|[H|[]]]; discriminate H. }
  pose proof (proj1 (proj2 (V 1%nat _ _ eq_refl eq_refl)) N1) as E1. injection E1 as ->.
  pose proof (proj1 (V 2%nat _ _ eq_refl eq_refl) 9 (or_intror (or_introl eq_refl)) ltac:(lra)) as E2. injection E2 as ->. reflexivity.
Qed.
(** f(True, 0.0) uses the default 4/5. *)
Example C13_zero_example : construct sample_lib sample_ctor true [Some 0] [] = Ok (l_with sample_lib 2 [4 / 5; 7; 2]).
Proof.
  assert (C : call_ok sample_lib [Some 0] []) by (split; [cbn; lia|]; split; [constructor|intros k []]).
  destruct sample_arguments as [L A]. destruct (construct_ok _ _ _ _ true _ _ sample_gen L A C) as (vs & E & N & V). rewrite E.
  do 2 f_equal. destruct vs as [|a [|b [|c [|]]]]; try discriminate.
  pose proof (proj2 (proj2 (V 0%nat _ _ eq_refl eq_refl)) (or_introl eq_refl)) as E0. injection E0 as ->.
  assert (N1 : forall x, ~ passed [Some 0] [] 1 "_c[1]" (Some x)) by (intros x [H|[]]; discriminate H).
  pose proof (proj1 (proj2 (V 1%nat _ _ eq_refl eq_refl)) N1) as E1. injection E1 as ->.
  assert (N2 : forall x, ~ passed [Some 0] [] 2 "lambda" (Some x)) by (intros x [H|[]]; discriminate H).
  pose proof (proj1 (proj2 (V 2%nat _ _ eq_refl eq_refl)) N2) as E2. injection E2 as ->. reflexivity.
Qed.

(** ** C14 *)

(** One value for each parameter of libxc, in its order; parameters not given (or given as None)
    keep their defaults, those given as a non-zero number get it. *)
Theorem C14_defaults_and_order_partial :
  forall rg heap f c polarized pos kw, gen_ctor rg heap f = Ok c -> params_listed f -> arguments_ok f -> call_ok f pos kw ->
  exists vs, construct f c polarized pos kw = Ok (l_with f (if polarized then 2%nat else 1%nat) vs) /\ values_used f pos kw vs.
Proof. exact construct_ok. Qed.
Print Assumptions C14_defaults_and_order_partial.
(** Two parameter names that become the same Python name make every call fail. *)
Theorem C14_colliding_names_fail :
  forall rg heap f c polarized pos kw x, gen_ctor rg heap f = Ok c -> params_listed f -> ~ NoDup (map param_name (l_names f)) ->
  construct f c polarized pos kw = Ok x -> False.
Proof. exact construct_collision. Qed.
Print Assumptions C14_colliding_names_fail.
(** Keywords that are no parameter are rejected. *)
Theorem C14_unknown_keyword :
  forall f c polarized pos kw k v, def_ok main_fixed c = true -> In (k, v) kw -> ~ In k (keys (g_params c)) ->
  construct f c polarized pos kw = Err TypeError.
Proof. exact construct_unknown_keyword. Qed.
Print Assumptions C14_unknown_keyword.

Example C14_example : gen_ctor sample_rg zeros sample_lib = Ok sample_ctor /\ params_listed sample_lib /\ arguments_ok sample_lib /\
  call_ok sample_lib sample_pos sample_kw.
Proof. split; [reflexivity|]. split; [apply sample_arguments|]. split; [apply sample_arguments|apply sample_call]. Qed.
Definition clash_lib : lib_func := {| l_names := ["a[1]"; "a_1_"]%b; l_defaults := [1; 2]; l_with := l_with sample_lib |}.
Example C14_clash_example : ~ NoDup (map param_name (l_names clash_lib)) /\ construct clash_lib (Ctor (ext_params clash_lib) "gga_x_pbe" "gga") true [] [] = Err ValueError.
Proof. split; [|reflexivity]. intros H. apply distinct_NoDup in H. discriminate H. Qed.
Example C14_keyword_example : construct sample_lib sample_ctor true [] [("kappa"%b, Some 1)] = Err TypeError.
Proof.
  apply (C14_unknown_keyword _ _ _ _ _ "kappa"%b (Some 1)); [reflexivity|left; reflexivity|].
  cbn. intros H. repeat (destruct H as [H|H]; [discriminate H|]). exact H.
Qed.

(** ** C15 *)

(** The callable of a functional with components has libxc's values of the five attributes, for
    the parameter values of the call. *)
Theorem C15_mixtures_show_attributes_partial :
  forall rg heap f c x r, modules_named rg -> gen_ctor rg heap f = Ok c -> get_record rg heap x = Ok r ->
  ~ special (x_name (l_with f 1 (l_defaults f))) -> x_aux (l_with f 1 (l_defaults f)) <> None ->
  exists attrs, callable_attrs rg heap c x = Ok attrs /\ shows (x_scal x) attrs.
Proof. exact mixture_attrs. Qed.
Print Assumptions C15_mixtures_show_attributes_partial.
(** A functional with a formula of its own has none of them, hybrid or not. *)
Theorem C15_hybrids_with_formula_refuted :
  forall rg heap f c x r, modules_named rg -> gen_ctor rg heap f = Ok c -> get_record rg heap x = Ok r ->
  special (x_name (l_with f 1 (l_defaults f))) \/ x_aux (l_with f 1 (l_defaults f)) = None ->
  callable_attrs rg heap c x = Ok [].
Proof. exact single_attrs. Qed.
Print Assumptions C15_hybrids_with_formula_refuted.
(** The experimental interface: the same for functionals with components. *)
Theorem C15_experimental_mixtures :
  forall rg heap x r, get_record rg heap x = Ok r -> ~ special (x_name x) -> x_aux x <> None ->
  exists attrs, exp_callable_attrs rg heap x = Ok attrs /\ shows (x_scal x) attrs.
Proof. exact exp_mixture_attrs. Qed.
Print Assumptions C15_experimental_mixtures.

(** hyb_gga_xc_b3lyp-like mixture, and the shipped hyb_gga_xc_case21 which has its own formula. *)
Definition mix_lib : lib_func := {| l_names := ["_a0"%b]; l_defaults := [/ 4];
  l_with := fun ns vs => XC "hyb_gga_xc_b1" None None None 7%nat sample_scalars ns [] (Some [l_with sample_lib ns [1; 2; 3]]) (Some vs) |}.
Definition case21_lib : lib_func := {| l_names := []; l_defaults := [];
  l_with := fun ns _ => XC "hyb_gga_xc_case21" None (Some 2%nat) None 9%nat sample_scalars ns [] None None |}.
Lemma sample_named : modules_named sample_rg. Proof. intros k m [E|[]]. injection E as _ <-. discriminate. Qed.
Example C15_example : exists c r attrs, gen_ctor sample_rg zeros mix_lib = Ok c /\ get_record sample_rg zeros (l_with mix_lib 2 [/ 4]) = Ok r /\
  callable_attrs sample_rg zeros c (l_with mix_lib 2 [/ 4]) = Ok attrs /\ shows sample_scalars attrs.
Proof.
  eexists _, _. set (x := l_with mix_lib 2 [/ 4]).
  destruct (C15_mixtures_show_attributes_partial sample_rg zeros mix_lib (Ctor [("_a0"%b, / 4)] "" "gga") x (match get_record sample_rg zeros x with Ok r => r | _ => VInt 0 end) sample_named eq_refl eq_refl) as (attrs & E & S).
  - intros [H|H]; discriminate H.
  - discriminate.
  - exists attrs. split; [reflexivity|]. split; [reflexivity|]. split; [exact E|exact S].
Qed.
Example C15_refuted_example : exists c r, gen_ctor sample_rg zeros case21_lib = Ok c /\ get_record sample_rg zeros (l_with case21_lib 1 []) = Ok r /\
  callable_attrs sample_rg zeros c (l_with case21_lib 1 []) = Ok [].
Proof.
  eexists _, _. split; [reflexivity|]. split; [reflexivity|].
  eapply (C15_hybrids_with_formula_refuted sample_rg zeros case21_lib); [apply sample_named|reflexivity|reflexivity|]. right. reflexivity.
Qed.

(** ** C26 *)

(** Names ident and ident[index], other than Python keywords, become usable identifiers ("lambda"
    included). *)
Theorem C26_names_usable_partial : forall n, libxc_name n -> ~ (In n keywords /\ n <> "lambda"%b) -> usable_name (param_name n) = true.
Proof. exact param_name_usable. Qed.
Print Assumptions C26_names_usable_partial.
(** Different names stay different, but for s[d] and s_d_. *)
Theorem C26_names_distinct_partial : forall m n, libxc_name m -> libxc_name n -> param_name m = param_name n ->
  m = n \/ exists s d, digits d /\ ((m = indexed s d /\ n = underscored s d) \/ (n = indexed s d /\ m = underscored s d)).
Proof. exact param_name_inj. Qed.
Print Assumptions C26_names_distinct_partial.
(** Those two do collide, and the other keywords are left as they are. *)
Theorem C26_names_distinct_refuted : forall s d, identifier s = true -> digits d ->
  param_name (indexed s d) = param_name (underscored s d) /\ indexed s d <> underscored s d.
Proof. exact param_name_clash. Qed.
Print Assumptions C26_names_distinct_refuted.
Theorem C26_keywords_refuted : forall n, In n keywords -> n <> "lambda"%b -> param_name n = n /\ usable_name (param_name n) = false.
Proof. exact param_name_keyword. Qed.
Print Assumptions C26_keywords_refuted.

Example C26_example : libxc_name "_alpha" /\ libxc_name "_c[12]" /\ libxc_name "lambda" /\
  param_name "_c[12]" = "_c_12_"%b /\ param_name "lambda" = "lambda_"%b /\ param_name "_lambda_pbe" = "_lambda__pbe"%b /\
  In "if"%b keywords /\ identifier "a" = true /\ digits "1".
Proof.
  split; [apply name_plain; reflexivity|]. split; [apply (name_indexed "_c" "12"); [reflexivity|split; [discriminate|reflexivity]]|].
  split; [apply name_plain; reflexivity|]. repeat split; try reflexivity; [|discriminate]. cbn. tauto.
Qed.
