(** Properties of the wrapper generator and of what the wrapped files register: C25, C35. *)
From Coq Require Import Strings.Byte List Bool Arith Lia.
From Verif Require Import Bytes Parser PostFast Literals Semantics Impl Records Wrap WrapThm WrapThm2.
Import ListNotations.
Open Scope nat_scope.

(** ** C25: in a file with one struct definition, where every allocating init function allocates
    that struct, the generator registers the struct with its members in order and each of these
    init functions with it, and nothing else but the Maple name. *)
Theorem C25_struct_and_inits_registered_partial :
  forall content fs st ds tail ms ws,
  functions content fs -> fs <> [] -> (forall f, In f fs -> snd f = st) ->
  struct_text content st (body_text ds tail) -> Forall decl_ok ds -> layout_ok is_space tail ->
  includes content ms ws -> length ms <= 1 -> length ws <= length ms ->
  wrap_file content = Ok (REGISTER_PARAMS st (flat_map decl_names ds) :: map (fun f => REGISTER_INIT (fst f) st) fs ++ maple_macro ms ws).
Proof. exact wrapped. Qed.
Print Assumptions C25_struct_and_inits_registered_partial.
(** A file without allocating init functions registers no struct. *)
Theorem C25_nothing_registered :
  forall content ms ws, functions content [] -> includes content ms ws -> length ms <= 1 -> length ws <= length ms ->
  wrap_file content = Ok (maple_macro ms ws).
Proof. exact wrapped_none. Qed.
Print Assumptions C25_nothing_registered.
(** Linked with any other files, the extension reads for a functional with one of these init
    functions every member of the struct, and nothing else. *)
Theorem C25_parameters_read :
  forall addr st fields fs ms ws rs1 rs2 i f,
  In (i, st) fs -> x_init f = addr i -> map fst (x_struct f) = fields ->
  (forall r, In r (rs1 ++ rs2) -> ~ In (addr i) (map fst (registry r))) ->
  forall k, assoc k (get_params (link (rs1 ++ load addr (REGISTER_PARAMS st fields :: map (fun f => REGISTER_INIT (fst f) st) fs ++ maple_macro ms ws) :: rs2)) f) = assoc k (x_struct f).
Proof. exact params_read. Qed.
Print Assumptions C25_parameters_read.
Theorem C25_no_parameters :
  forall rg f, ~ In (x_init f) (map fst (registry rg)) -> get_params rg f = [].
Proof. exact params_none. Qed.
Print Assumptions C25_no_parameters.

(** A file whose init function allocates a struct that the file does not define, or defines more
    than once, is refused. *)
Theorem C25_not_one_definition_refused :
  forall content fs st i bs ms ws,
  functions content fs -> In (i, st) fs -> st <> bnil -> starts is_space st = false -> structs st content bs -> length bs <> 1 ->
  includes content ms ws -> length ms <= 1 -> length ws <= length ms ->
  wrap_file content = Err RuntimeError.
Proof. exact struct_refused. Qed.
Print Assumptions C25_not_one_definition_refused.

(** A file that meets the hypotheses: two allocating init functions, one that allocates nothing at
    the end, comments with semicolons, a const member, array members. *)
Definition sample_decls : list decl := [
  {| d_lead := [Plain (bcons x0a "  ")]; d_const := None; d_type := "double"; d_gap := [Plain " "]; d_name := "alpha"; d_dims := [];
     d_more := []; d_trail := [] |};
  {| d_lead := [Plain " "; Comment " the exponent; see b88 "; Plain (bcons x0a "  ")]; d_const := Some [Plain " "]; d_type := "int"; d_gap := [Plain " "];
     d_name := "n"; d_dims := [];
     d_more := [{| m_before := []; m_after := [Plain " "; Comment " shape, size "; Plain " "]; m_name := "c"; m_dims := ["2"; "3"]%b |}]; d_trail := [Plain " "] |}]%b.
Definition sample_lines : list line := [
  Other "#include ""util.h"""; Other "";
  Other "typedef struct {"; Other "  double alpha; /* the exponent; see b88 */"; Other "  const int n, /* shape, size */ c[2][3] ;"; Other "} gga_x_demo_params;"; Other "";
  Other "static void"; Other "gga_x_demo_init(xc_func_type *p)"; Other "{"; Other "  p->params = libxc_malloc(sizeof(gga_x_demo_params));"; Other "}"; Other "";
  Other "static void gga_k_demo_init(xc_func_type *p) {"; Other "  p->params = libxc_malloc(sizeof(gga_x_demo_params)); }";
  Maple_include "gga_exc" "gga_x_demo"; Work_include "gga";
  Other "void hyb_gga_x_demo_init(xc_func_type *p) { p->params = NULL; }"; Other ""]%b.
Definition sample_file : bstr := file_text sample_lines.
Definition sample_functions : list (bstr * bstr) := [("gga_x_demo_init", "gga_x_demo_params"); ("gga_k_demo_init", "gga_x_demo_params")]%b.
Definition sample_before : bstr := Eval vm_compute in file_text (firstn 2 sample_lines ++ [Other ""]).
Definition sample_after : bstr := Eval vm_compute in join_lines (";" :: map line_text (skipn 6 sample_lines))%b.
Definition sample_gap : bstr := Eval vm_compute in file_text (firstn 8 sample_lines ++ [Other ""]).
Definition sample_end : bstr := Eval vm_compute in join_lines ("));" :: map line_text (skipn 11 sample_lines))%b.
Definition sample_gap2 : bstr := Eval vm_compute in join_lines ("));" :: map line_text (firstn 2 (skipn 11 sample_lines)) ++ ["static void "])%b.
Definition sample_end2 : bstr := Eval vm_compute in join_lines (")); }" :: map line_text (skipn 15 sample_lines))%b.
Example C25_sample :
  functions sample_file sample_functions /\ (forall f, In f sample_functions -> snd f = "gga_x_demo_params"%b) /\
  struct_text sample_file "gga_x_demo_params" (body_text sample_decls [Plain (bcons x0a bnil)]) /\
  Forall decl_ok sample_decls /\ layout_ok is_space [Plain (bcons x0a bnil)] /\ includes sample_file ["gga_x_demo"%b] ["work_gga"%b] /\
  wrap_file sample_file = Ok [
    REGISTER_PARAMS "gga_x_demo_params" ["alpha"; "n"; "c"]; REGISTER_INIT "gga_x_demo_init" "gga_x_demo_params";
    REGISTER_INIT "gga_k_demo_init" "gga_x_demo_params"; REGISTER_MAPLE "work_gga" "gga_x_demo"]%b.
Proof.
  refine (conj _ (conj _ (conj _ (conj _ (conj _ (conj _ _)))))).
  - replace sample_file with (sample_gap +++ "gga_x_demo" +++ init_sig +++ bcons x0a (bcons "{" (bcons x0a "  p->params = ")) +++ malloc_sig +++ "gga_x_demo_params" +++ sample_end)%b by (vm_compute; reflexivity).
    apply (one_function sample_gap "gga_x_demo"); try reflexivity; try (apply absent_check; vm_compute; reflexivity).
    { right. exists (file_text (firstn 8 sample_lines)), x0a. split; vm_compute; reflexivity. }
    replace sample_end with (sample_gap2 +++ "gga_k_demo" +++ init_sig +++ (" {" +++ bcons x0a "  p->params = ") +++ malloc_sig +++ "gga_x_demo_params" +++ sample_end2)%b by (vm_compute; reflexivity).
    apply (one_function sample_gap2 "gga_k_demo"); try reflexivity; try (apply absent_check; vm_compute; reflexivity).
    { right. exists (join_lines ("));" :: map line_text (firstn 2 (skipn 11 sample_lines)) ++ ["static void"])%b), (ch " "). split; vm_compute; reflexivity. }
    apply no_allocation. apply absent_check. vm_compute. reflexivity.
  - intros f [<-|[<-|[]]]; reflexivity.
  - exists sample_before, " "%b, " "%b, sample_after. refine (conj _ (conj _ (conj _ (conj _ (conj _ (conj _ (conj _ (conj _ _)))))))); try reflexivity; try discriminate; try (apply absent_check; vm_compute; reflexivity).
    right. exists (file_text (firstn 2 sample_lines)), x0a. split; vm_compute; reflexivity.
  - repeat constructor; try discriminate; try (apply absent_check; reflexivity).
  - repeat constructor.
  - exists sample_lines. split; [discriminate|]. split; [|split; [reflexivity|split; reflexivity]].
    repeat constructor; apply absent_check; vm_compute; reflexivity.
  - vm_compute. reflexivity.
Qed.

(** A file that defines its struct twice. *)
Definition twice_lines : list line := [
  Other "typedef struct { double a; } s_params;"; Other "typedef struct { int b; } s_params;";
  Other "void s_init(xc_func_type *p) { p->params = libxc_malloc(sizeof(s_params)); }"]%b.
Definition twice_gap : bstr := Eval vm_compute in join_lines (map line_text (firstn 2 twice_lines) ++ ["void "])%b.
Example C25_twice :
  functions (file_text twice_lines) [("s_init", "s_params")]%b /\ structs "s_params" (file_text twice_lines) [" double a; "; " int b; "]%b /\
  includes (file_text twice_lines) [] [] /\ wrap_file (file_text twice_lines) = Err RuntimeError.
Proof.
  assert (F : functions (file_text twice_lines) [("s_init", "s_params")]%b).
  { replace (file_text twice_lines) with (twice_gap +++ "s" +++ init_sig +++ " { p->params = " +++ malloc_sig +++ "s_params" +++ ")); }")%b by (vm_compute; reflexivity).
    apply (one_function twice_gap "s"); try reflexivity; try (apply absent_check; vm_compute; reflexivity).
    { right. exists (join_lines (map line_text (firstn 2 twice_lines) ++ ["void"])%b), (ch " "). split; vm_compute; reflexivity. }
    apply no_allocation. apply absent_check. vm_compute. reflexivity. }
  assert (S : structs "s_params" (file_text twice_lines) [" double a; "; " int b; "]%b).
  { set (t1 := bcons ";" (bcons x0a bnil)). set (t2 := join_lines (";" :: map line_text (skipn 2 twice_lines))%b).
    replace (file_text twice_lines) with (bnil +++ typedef +++ " " +++ "{" +++ " double a; " +++ "}" +++ " " +++ "s_params" +++
      (t1 +++ typedef +++ " " +++ "{" +++ " int b; " +++ "}" +++ " " +++ "s_params" +++ t2))%b by (vm_compute; reflexivity).
    apply structs_one; try reflexivity; try (apply absent_check; vm_compute; reflexivity); [left; reflexivity|].
    apply structs_one; try reflexivity; try (apply absent_check; vm_compute; reflexivity); [right; exists ";"%b, x0a; split; reflexivity|].
    apply structs_none, absent_check. vm_compute. reflexivity. }
  assert (I : includes (file_text twice_lines) [] []).
  { exists twice_lines. split; [discriminate|]. split; [|split; [reflexivity|split; reflexivity]].
    repeat constructor; apply absent_check; vm_compute; reflexivity. }
  split; [exact F|]. split; [exact S|]. split; [exact I|].
  apply (C25_not_one_definition_refused _ _ "s_params" "s_init" [" double a; "; " int b; "]%b [] [] F); [left; reflexivity|discriminate|reflexivity|exact S|discriminate|exact I| |]; cbn; lia.
Qed.

(** The restrictions are needed.  An init function that allocates nothing, before one that
    allocates, takes the registration of the latter. *)
Theorem C25_init_without_allocation_refuted :
  wrap_file ("typedef struct { double a; } s_params;
void first_init(xc_func_type *p) { }
void second_init(xc_func_type *p) { p->params = libxc_malloc(sizeof(s_params)); }
"%b) = Ok [REGISTER_PARAMS "s_params" ["a"]; REGISTER_INIT "first_init" "s_params"]%b.
Proof. vm_compute. reflexivity. Qed.
Print Assumptions C25_init_without_allocation_refuted.
(** In a file with two structs, the second one is registered with the first one's members and
    with words that are no members. *)
Theorem C25_two_structs_refuted :
  wrap_file ("typedef struct { double a; } s_params;
typedef struct { double b; } t_params;
void s_init(xc_func_type *p) { p->params = libxc_malloc(sizeof(s_params)); }
void t_init(xc_func_type *p) { p->params = libxc_malloc(sizeof(t_params)); }
"%b) = Ok [REGISTER_PARAMS "s_params" ["a"]; REGISTER_INIT "s_init" "s_params";
           REGISTER_PARAMS "t_params" ["a"; "s_params"; "struct"; "{"; "double"; "b"]; REGISTER_INIT "t_init" "t_params"]%b.
Proof. vm_compute. reflexivity. Qed.
Print Assumptions C25_two_structs_refuted.
(** A type of two words leaves its second word among the members. *)
Theorem C25_two_word_type_refuted :
  wrap_file ("typedef struct { unsigned int a; } s_params;
void s_init(xc_func_type *p) { p->params = libxc_malloc(sizeof(s_params)); }
"%b) = Ok [REGISTER_PARAMS "s_params" ["int"; "a"]; REGISTER_INIT "s_init" "s_params"]%b.
Proof. vm_compute. reflexivity. Qed.
Print Assumptions C25_two_word_type_refuted.

(** ** C35: the Maple name registered for a work function is that of the file's own include; a
    file with several of either include is refused, and so is a work include without a Maple one. *)
Theorem C35_own_maple_name :
  forall content m w fs st ds tail,
  functions content fs -> (fs = [] \/ (forall f, In f fs -> snd f = st) /\ struct_text content st (body_text ds tail) /\ Forall decl_ok ds /\ layout_ok is_space tail) ->
  includes content [m] [w] ->
  exists l, wrap_file content = Ok (l ++ [REGISTER_MAPLE w m]) /\ forall w' m', ~ In (REGISTER_MAPLE w' m') l.
Proof. exact own_maple_name. Qed.
Print Assumptions C35_own_maple_name.
Theorem C35_several_refused :
  forall content ms ws, includes content ms ws -> 1 < length ms \/ 1 < length ws -> wrap_file content = Err ValueError.
Proof. exact includes_fail. Qed.
Print Assumptions C35_several_refused.
Theorem C35_work_without_maple_refused :
  forall content w, includes content [] [w] -> wrap_file content = Err IndexError.
Proof. exact work_without_maple. Qed.
Print Assumptions C35_work_without_maple_refused.
(** The record of a functional with that work function then names that Maple file. *)
Theorem C35_record_names_it :
  forall addr m w l rs1 rs2 f, (forall w' m', ~ In (REGISTER_MAPLE w' m') l) ->
  x_aux f = None -> work_key f = Some (addr w) ->
  x_name f <> "mgga_x_2d_prhg07_prp10"%b -> x_name f <> "hyb_mgga_xc_b98"%b ->
  (forall r, In r rs2 -> ~ In (addr w) (map fst (work_to_maple_name r))) ->
  get_maple_name (link (rs1 ++ load addr (l ++ [REGISTER_MAPLE w m]) :: rs2)) f = Ok m.
Proof. exact record_names_it. Qed.
Print Assumptions C35_record_names_it.
Example C35_sample : includes sample_file ["gga_x_demo"%b] ["work_gga"%b] /\
  includes (file_text [Maple_include "gga_exc" "gga_x_demo"; Maple_include "gga_exc" "gga_x_pbe"; Work_include "gga"])%b ["gga_x_demo"; "gga_x_pbe"]%b ["work_gga"]%b /\
  includes (file_text [Other "int x;"; Work_include "mgga_new"])%b [] ["work_mgga_new"]%b.
Proof.
  split; [exact (proj1 (proj2 (proj2 (proj2 (proj2 (proj2 C25_sample))))))|]. split.
  - eexists. split; [|split; [|split; [reflexivity|split; reflexivity]]]; [discriminate|]. repeat constructor.
  - eexists. split; [|split; [|split; [reflexivity|split; reflexivity]]]; [discriminate|]. repeat constructor; apply absent_check; reflexivity.
Qed.
