(** Properties of the path from libxc to the functional records: C21, C22, C23, C24. *)
From Coq Require Import Reals List Bool ZArith Arith Strings.Byte Lra.
From Verif Require Import Bytes Syntax Parser Src Semantics Impl ImplThm Records RecordsThm RecordsThm2 RecordsThm3 RecordsThm4 RecordsThm5 Samples.
Import ListNotations.
Open Scope R_scope.

(** ** C21: when the extension returns a dictionary for a libxc structure whose parameter names
    are usable, the conversion succeeds and the record shows the structure's fields, recursively. *)
Theorem C21_records_mirror_libxc :
  forall rg heap f v, xc_get_p rg heap f = Ok v -> names_ok f ->
  exists r, get_record rg heap f = Ok r /\ record_of rg heap f r.
Proof. exact record_mirrors_libxc. Qed.
Print Assumptions C21_records_mirror_libxc.
(** The extension fails only with the error it raises itself. *)
Theorem C21_get_p_fails_only_with_runtime_error :
  forall rg heap f e, xc_get_p rg heap f = Err e -> e = RuntimeError.
Proof. exact get_p_fails. Qed.
Print Assumptions C21_get_p_fails_only_with_runtime_error.
(** The evaluation path of Impl.v runs on exactly that record. *)
Theorem C21_record_is_what_is_evaluated :
  forall rg heap f v name r, xc_get_p rg heap f = Ok v -> convert v name = Ok r ->
  exists p, func_of rg heap f = Ok p /\ reads r p.
Proof. exact record_read. Qed.
Print Assumptions C21_record_is_what_is_evaluated.
(** A formula that names an array element, as in params.c[1] or params.c[0][2], gets that element of
    the structure's array: arrays are laid out row by row. *)
Theorem C21_array_elements :
  forall r p pr base a ix s, reads r p -> getattr r "params" = Some pr -> getattr pr base = Some (VArr a) ->
  length (a_data a) = size (a_shape a) -> all_bytes (fun b => negb (Byte.eqb b (ch "["))) base = true -> subscripts ix s ->
  fp_params p (base +++ s) = element (a_shape a) ix (a_data a).
Proof. exact reads_element. Qed.
Print Assumptions C21_array_elements.
Example C21_elements_example : subscripts [1; 12]%nat "[1][12]" /\ element [2; 3]%nat [1; 2]%nat [10; 11; 12; 20; 21; 22] = Some 22 /\ element [3]%nat [0]%nat [10; 11; 12] = Some 10.
Proof.
  split; [|split; reflexivity]. change "[1][12]"%b with ("[" +++ digit 1 +++ "]" +++ "[" +++ (digit 1 +++ digit 2) +++ "]" +++ "")%b.
  constructor; [constructor; repeat constructor|]. constructor; [|constructor]. change 12%nat with (10 * 1 + 2)%nat. repeat constructor.
Qed.
(** A hybrid with two components, one of which has a parameter array and a parameter "lambda". *)
Definition hyb : xc_func :=
  XC "hyb_gga_xc_b3" None None None 7%nat sample_scalars 2%nat []
    (Some [XC "lda_x" (Some 1%nat) None None 0%nat sample_scalars 2%nat [] None None;
           XC "gga_x_pbe" None (Some 2%nat) None 3%nat sample_scalars 2%nat
              [("c", Arr [3%nat] [1; 2; 3]); ("lambda", Arr [] [5])]%b None None]) (Some [/ 4; 3 / 4]).
Definition hyb_rg : registries := {|
  registry := [(3%nat, ["lambda"; "c"]%b)];
  work_to_maple_name := [(1%nat, "lda_x"%b); (2%nat, "gga_x_pbe"%b)] |}.
Example C21_example : names_ok hyb /\ exists v r l q pr,
  xc_get_p hyb_rg zeros hyb = Ok v /\ get_record hyb_rg zeros hyb = Ok r /\
  getattr r "func_aux" = Some (VList l) /\ nth_error l 1 = Some q /\
  getattr q "params" = Some pr /\ getattr pr "lambda_" = Some (VArr (Arr [] [5])) /\
  getattr r "mix_coef" = Some (VArr (Arr [2%nat] [/ 4; 3 / 4])).
Proof.
  split.
  - cbn. unfold members_ok. cbn.
    assert (L : forall k : bstr, "c"%b = k \/ "lambda"%b = k \/ False -> usable_field (ren k) = true).
    { intros k [<-|[<-|[]]]; reflexivity. }
    intuition; discriminate.
  - eexists _, _, _, _, _. repeat split; reflexivity.
Qed.

(** ** C22: the conversion keeps every entry and invents none. *)
Theorem C22_conversion_loses_nothing :
  forall d name, usable (VDict d) name ->
  exists r, dict_to_namedtuple (VDict d) name = Ok r /\ mirrors (VDict d) r.
Proof. exact dict_to_namedtuple_lossless. Qed.
Print Assumptions C22_conversion_loses_nothing.
Example C22_example :
  let d := [("a", VInt 1); ("lambda", VFloat 2); ("l", VList [VDict [("x", VStr "y")]]); ("d", VDict [("lambda", VInt 3)])]%b in
  usable (VDict d) "P" /\
  dict_to_namedtuple (VDict d) "P" =
    Ok (VRec "P" [("a", VInt 1); ("l", VList [VRec "l" [("x", VStr "y")]]); ("d", VRec "d" [("lambda_", VInt 3)]); ("lambda_", VFloat 2)]%b).
Proof.
  split; [|reflexivity].
  assert (K : forall A (l : list (bstr * A)), distinct (keys l) = true -> existsb (beqb "lambda_") (keys l) = false -> keys_ok l).
  { intros A l H1 H2. split; [apply distinct_NoDup, H1|]. intros [_ H].
    assert (X : existsb (beqb "lambda_") (keys l) = true) by (apply existsb_exists; exists "lambda_"%b; split; [exact H|reflexivity]). congruence. }
  cbn. repeat split; try reflexivity; try (apply K; reflexivity).
Qed.
(** Outside that domain entries can be lost: with both keys "lambda" and "lambda_" the second
    one disappears. *)
Theorem C22_lambda_collision_refuted :
  dict_to_namedtuple (VDict [("lambda", VInt 1); ("lambda_", VInt 2)]%b) "P" = Ok (VRec "P" [("lambda_", VInt 1)]%b).
Proof. reflexivity. Qed.
Print Assumptions C22_lambda_collision_refuted.
(** and a list whose elements are not dictionaries makes the conversion fail. *)
Theorem C22_list_of_numbers_fails :
  forall k l, l <> [] -> (forall v, In v l -> forall d, v <> VDict d) -> convert (VList l) k = Err TypeError.
Proof.
  intros k [|v l] H1 H2; [congruence|]. cbn [convert rmap]. specialize (H2 v (or_introl eq_refl)).
  destruct v; try reflexivity. elim (H2 d eq_refl).
Qed.
Print Assumptions C22_list_of_numbers_fails.

(** ** C23: the family is the one of the three whose prefix, possibly after "hyb_", the name has;
    there is at most one, and the three generators agree. *)
Theorem C23_family_of_a_name :
  forall name,
  (forall t, name_to_type name = Ok t <-> In t ["lda"; "gga"; "mgga"]%b /\ has_family name t) /\
  (forall e, name_to_type name = Err e -> forall t, In t ["lda"; "gga"; "mgga"]%b -> ~ has_family name t).
Proof. exact name_to_type_spec. Qed.
Print Assumptions C23_family_of_a_name.
Theorem C23_family_unique :
  forall name t t', In t ["lda"; "gga"; "mgga"]%b -> In t' ["lda"; "gga"; "mgga"]%b ->
  has_family name t -> has_family name t' -> t = t'.
Proof. exact family_unique. Qed.
Print Assumptions C23_family_unique.
Theorem C23_generators_agree :
  forall name ext ext', (forall b, In b (to_bytes name) -> b <> "."%byte) ->
  same_outcome (name_to_type name) (gen_py_type (name +++ bcons "."%byte ext)) /\
  same_outcome (name_to_type name) (gen_maple_type (name +++ bcons "."%byte ext')).
Proof. exact families_agree. Qed.
Print Assumptions C23_generators_agree.
Example C23_example :
  name_to_type "hyb_mgga_xc_b98" = Ok "mgga"%b /\ name_to_type "xc_lda" = Err RuntimeError /\
  gen_py_type "hyb_gga_x_cam_s12.py" = Ok "gga"%b /\ gen_maple_type "lda_x.mpl" = Ok "lda"%b.
Proof. repeat split; reflexivity. Qed.

(** ** C24: formula resolution. *)
Theorem C24_formula_resolution :
  forall rg f, ~ special (x_name f) ->
  (x_aux f <> None -> get_maple_name rg f = Ok ""%b) /\
  (x_aux f = None -> forall m, get_maple_name rg f = Ok m <->
     exists k l1 l2, work_key f = Some k /\ work_to_maple_name rg = l1 ++ (k, m) :: l2 /\ ~ In k (map fst l2)) /\
  (x_aux f = None -> (work_key f = None \/ exists k, work_key f = Some k /\ ~ In k (map fst (work_to_maple_name rg))) ->
     get_maple_name rg f = Err RuntimeError).
Proof. exact resolution. Qed.
Print Assumptions C24_formula_resolution.
Theorem C24_special_names :
  forall rg f,
  (x_name f = "mgga_x_2d_prhg07_prp10"%b -> get_maple_name rg f = Ok "mgga_x_2d_prp10"%b) /\
  (x_name f = "hyb_mgga_xc_b98"%b -> get_maple_name rg f = Ok "mgga_xc_b98"%b).
Proof. exact resolution_special. Qed.
Print Assumptions C24_special_names.
Example C24_example :
  get_maple_name hyb_rg hyb = Ok ""%b /\
  get_maple_name hyb_rg (XC "lda_x" (Some 1%nat) None None 0%nat sample_scalars 2%nat [] None None) = Ok "lda_x"%b /\
  get_maple_name hyb_rg (XC "lda_c_pw" (Some 9%nat) None None 0%nat sample_scalars 2%nat [] None None) = Err RuntimeError.
Proof. repeat split; reflexivity. Qed.
