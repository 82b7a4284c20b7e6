# Formal model of sail-sg/jax_xc in Rocq/Coq 8.16

jax_xc is a code generator around libxc plus a thin runtime.  The model follows that split: the
text transformations are modelled on byte strings, the runtime as a function with Python's
exceptions as values, the formulas by their own text, parsed and evaluated over the real numbers.

## What is modelled

| code in /repo | model | how |
|---|---|---|
| `gen_repo/impl/prebuilt/{pol,unpol}/*.py`: 261 functionals x 2 programs, 1.15 MB | `Src*.v` | the text itself, one string literal per line; written by `tools/gen_src.py`, which interprets nothing |
| `gen_repo/impl/gen_py.py` `post_process` | `PostProcess.v` | the sixteen substitutions, one function each, in order |
| the subset of Python in those programs | `Syntax.v`, `Parser.v`, `Ast*.v` | lexer and recursive-descent parser, which C45 compares with the rules of the Python reference; `Ast*.v` store the parse of every rewritten text together with the proof that it is that parse |
| meaning of a generated module | `Semantics.v` | evaluation over R; `None` is undefined arithmetic, an absent argument, an unbound name or an ill-typed operand |
| `gen_repo/impl/utils.py` `lax_cond`, `Heaviside` | `Helpers.v` | Python ints, Python floats, JAX arrays; TypeError as a value |
| `gen_repo/impl/utils.py` `rho_to_arguments`, `gen_repo/impl/python_template.jinja` | `Impl.v` | shape checks, gradient products, Laplacian, tau, the threshold |
| `gen_repo/python_template.jinja` (`invoke`, callables), `gen_repo/experimental.jinja` | `Impl.v` | recursion over the tree of components, exceptions as values |
| `gen_repo/gen_py.py`, generated constructors of both templates | `ExtParams.v` | parameter names, defaults, Python's rules for keyword arguments |
| `gen_repo/utils.py`, `gen_repo/libxc/libxc.cc`, `register.h`, `register.cc` | `Records.v` | libxc structures as trees of field values, dictionaries, namedtuples, registries |
| `gen_repo/libxc/wrap.py`, `wrap.cc.jinja` | `Wrap.v` | the regular expressions as functions on byte strings, the macros, the dictionaries they fill when the extension is loaded |
| `gen_repo/impl/gen_maple.py`, `maple_template.jinja` | `MapleTemplate.v` | the reduced variables, for any kernel `f` |
| `gen_repo/impl/gen_build.py`, `impl/build.jinja`, `gen_repo/libxc/gen_build.py`, `libxc/build.jinja` | `GenBuild.v`, `Prebuilt.v` | from directory listings to rules |
| `gen_repo/gen_repo.bzl`, `gen_repo/python.bzl`, `gen_repo/gen_build.py` | `Layout.v` | the repository rules as functions on file trees, in the order of their commands; what mkdir, mv, delete, patch and symlink do to a tree; an interpreter is what the tag scripts ask of it |
| `gen_repo/impl/__init__.py`, `gen_repo/__init__.py`, names of `python_template.jinja` | `Package.v` | namespaces as lists of bindings; star imports |

Not modelled:

* floating-point rounding, overflow, NaN and infinities: the theorems about energies are about the
  exact real-number meaning of the text;
* JAX tracing, jit, vmap; automatic differentiation is represented by the derivatives it returns
  (`Deriv.v` says what it means that they are the derivatives);
* libxc itself: a functional is an arbitrary tree of field values;
* Maple, Jinja, Bazel and pip as programs: what they do to the modelled input is written down as a
  function and cited;
* the command-line front ends, the tests, scripts and documentation.

Simplifications are noted in the comment of each definition.  The main ones: regular expressions are
modelled by hand-written matchers for exactly the patterns of the code; a C source is a byte string
without continuation lines; the special functions (`erf`, `lambertw`, ...) have an arbitrary meaning
(`interp`), except in C01-C06, C33, C36-C39 and C43, whose statements assume `ops_ok` (`AbsintThm.v`): `erf`
odd and between -1 and 1, `erfc` between 0 and 2, `erfcx` positive, the scaled `E1` between 1/(x+1)
and (x+1)/(x(x+2)) for positive x, `lambertw` between 0 and x for non-negative x, `i0` between 1 and
exp|x|, `atan2` total; C39 also assumes them differentiable where they are defined (`ops_smooth`, for
`atan2` at a positive first argument, the only one that occurs).

## Files

* Text: `Bytes`, `Syntax`, `Parser`, `PostProcess`, `PostFast`, `ParserThm` (the fuel of the parser
  suffices), `Literals`, `LiteralsThm`, `CubeRoots`, `CubeText`, `CubeText2` (one literal, one cube
  root), `Translate`, `TranslateThm` (the shipped texts).
* Formulas: `Src*`, `Ast*`, `Semantics`, `RPow`, `Norm`, `NormSound`, `NormCheck`, `NormThm` (the
  normaliser), `Problems`, `Families` (statements), `Fam*` (runs), `Interval*`, `Series`, `Absint*`
  (the interval analysis), `Domains` (inputs per functional), `Defined`, `Exact`, `Library`, `Callable`
  (statements about the callable), `Free`, `Inputs` (which names a formula reads), `FamSamples`, `Refute`,
  `Undefined`, `RunRefute`, `Precise`, `RunPrecise` (evaluation with bounds at one point, and what it
  refutes), `Sloc` (one functional by hand), `DecidedIndex`, `Decided` (the lists cover the library),
  `Kinetic`, `RunKinetic` (sign of kinetic energies), `Oxford`, `RunOxford` (the Lieb-Oxford bound),
  `Smooth`, `SmoothLib`, `SmoothCheck`, `SmoothFam`, `FamSmooth`, `SmoothSample`, `Pz` (derivatives),
  `Corr`, `RunCorr` (sign of correlation energies), `Meaning` (the operations of a formula as relations of analysis), `Tokens`, `Grammar`, `GrammarLib` (the tokens and trees of a text), `Factors`, `RunFactors`,
  `FactorCalls` (the limit of a uniform density with a factor in the parameters),
  `Calls`, `RunCalls` (the points of `RunRefute` and
  `RunPrecise` as records, densities and orbitals).
* Runtime: `Vec`, `Deriv`, `Impl`, `ImplThm*`, `Records`, `RecordsThm*`, `ExtParams`,
  `ExtParamsThm*`, `Helpers`, `Samples`.
* Generators: `Wrap`, `WrapThm*`, `MapleTemplate`, `GenBuild*`, `Prebuilt`, `Layout*`, `Package*`.
* Property theorems, each with an example and `Print Assumptions`: `PropRuntime`, `PropRecords`,
  `PropFamilies`, `PropCallable`, `PropParams`, `PropGen`, `PropText`, `PropWrap`, `PropRefuted`,
  `PropDecided`, `PropKinetic`, `PropOxford`, `PropSmooth`, `PropLayout`,
  `PropPackage`, `PropCorr`, `PropCalls`, `PropFactors`, `PropMeaning`, `PropGrammar`.

`tools/` holds the scripts that write the generated files (`Src*`, `Ast*`, `Prebuilt`, `Domains`,
`Fam*`), MANIFEST.json and the table of assumptions below.  None of them is trusted: what they write
is checked by Coq, except the copying of `/repo` text into `Src*.v` and `Prebuilt.v`.

## Trusted base

* Coq's kernel, including `vm_compute`.
* The axioms below, all of the standard library: `ClassicalDedekindReals.sig_forall_dec` and
  `sig_not_dec` and `functional_extensionality_dep` come with the real numbers;
  `Classical_Prop.classic` with parts of real analysis (powers, trigonometry, `Rtopology`).
* That the model says what the code does: the reading recorded in the comments, and the copies of
  text in `Src*.v` and `Prebuilt.v`.

What `Print Assumptions` lists for each theorem (written by `tools/gen_assumptions.py`):

<!-- assumptions -->
* no axioms (closed under the global context): `C09_leading_zero_refuted`, `C09_line`, `C09_literal`, `C09_no_point_refuted`, `C10_parenthesised_text`, `C10_word_text`, `C12_deorbitalize_branch_unreachable`, `C15_experimental_mixtures`, `C15_hybrids_with_formula_refuted`, `C15_mixtures_show_attributes_partial`, `C21_array_elements`, `C21_get_p_fails_only_with_runtime_error`, `C21_record_is_what_is_evaluated`, `C21_records_mirror_libxc`, `C22_conversion_loses_nothing`, `C22_lambda_collision_refuted`, `C22_list_of_numbers_fails`, `C23_family_of_a_name`, `C23_family_unique`, `C23_generators_agree`, `C24_formula_resolution`, `C24_special_names`, `C25_init_without_allocation_refuted`, `C25_no_parameters`, `C25_not_one_definition_refused`, `C25_nothing_registered`, `C25_parameters_read`, `C25_struct_and_inits_registered_partial`, `C25_two_structs_refuted`, `C25_two_word_type_refuted`, `C26_keywords_refuted`, `C26_names_distinct_partial`, `C26_names_distinct_refuted`, `C26_names_usable_partial`, `C27_library_exports`, `C27_libxc`, `C27_maple_files_partial`, `C27_maple_files_refuted`, `C27_one_module_per_file`, `C27_prebuilt_complete`, `C27_rule_names_partial`, `C27_rule_names_refuted`, `C27_shipped_names`, `C27_top_generator`, `C28_arguments`, `C32_all_exchange`, `C35_own_maple_name`, `C35_record_names_it`, `C35_several_refused`, `C35_work_without_maple_refused`, `C40_build_files`, `C40_labels`, `C40_patch`, `C40_repository_layout`, `C40_success_complete_refuted`, `C41_only_cpython`, `C41_wheel_tags`, `C42_any_name_refuted`, `C42_constructors_found`, `C42_formulas_found`, `C42_own_file`, `C42_shipped_found`, `C45_characters`, `C45_lines`, `C45_one_tokenisation`, `C45_one_tree`, `C45_shipped`, `C45_tokens`
* `ClassicalDedekindReals.sig_forall_dec`: `C29_ignores_other_partial`, `C29_integer_arrays_refuted`, `C29_selects_partial`
* `ClassicalDedekindReals.sig_forall_dec`, `FunctionalExtensionality.functional_extensionality_dep`: `C13_experimental_explicit_values`, `C13_explicit_values_partial`, `C13_explicit_zero_refuted`, `C14_colliding_names_fail`, `C14_defaults_and_order_partial`, `C14_unknown_keyword`, `C16_rejected_iff_malformed`, `C19_tau_additive`, `C19_tau_is_orbital_tau`, `C19_tau_nonnegative`
* `ClassicalDedekindReals.sig_forall_dec`, `ClassicalDedekindReals.sig_not_dec`, `FunctionalExtensionality.functional_extensionality_dep`: `C17_gradient_product_unpolarized`, `C17_gradient_products_polarized`, `C18_local_ingredients`, `C19_tau_phase`, `C19_tau_unitary`, `C19_von_weizsaecker_bound`
* `ClassicalDedekindReals.sig_forall_dec`, `ClassicalDedekindReals.sig_not_dec`, `Classical_Prop.classic`, `FunctionalExtensionality.functional_extensionality_dep`: `C01_calls_refuted`, `C01_closed_shell_formula_partial`, `C01_closed_shell_partial`, `C01_closed_shell_refuted`, `C01_closed_shell_returned_partial`, `C02_calls_refuted`, `C02_spin_flip_formula_partial`, `C02_spin_flip_partial`, `C02_spin_flip_refuted`, `C02_spin_flip_returned_partial`, `C03_calls_refuted`, `C03_exchange_scaling_formula_partial`, `C03_exchange_scaling_partial`, `C03_exchange_scaling_refuted`, `C03_exchange_scaling_returned_partial`, `C03_kinetic_scaling_formula_partial`, `C03_kinetic_scaling_partial`, `C03_kinetic_scaling_refuted`, `C03_kinetic_scaling_returned_partial`, `C04_calls_refuted`, `C04_spin_scaling_formula_partial`, `C04_spin_scaling_partial`, `C04_spin_scaling_refuted`, `C04_spin_scaling_returned_partial`, `C05_calls_refuted`, `C05_exchange_factor_partial`, `C05_kinetic_factor_partial`, `C05_parameters_refuted`, `C05_uniform_exchange_formula_partial`, `C05_uniform_exchange_partial`, `C05_uniform_exchange_refuted`, `C05_uniform_exchange_returned_partial`, `C05_uniform_kinetic_formula_partial`, `C05_uniform_kinetic_partial`, `C05_uniform_kinetic_refuted`, `C05_uniform_kinetic_returned_partial`, `C06_calls_refuted`, `C06_defined_pol_partial`, `C06_defined_unpol_partial`, `C06_returns_number_partial`, `C06_zero_gradient_refuted`, `C07_small_density_screening`, `C08_nothing_else`, `C08_value_kept`, `C10_call_argument_refuted`, `C10_parenthesised`, `C10_several_roots_refuted`, `C10_word`, `C11_mixture_fails`, `C11_mixture_is_weighted_sum`, `C11_mixture_tree`, `C12_deorbitalize_branch_fails`, `C12_deorbitalized_value_refuted`, `C12_experimental_deorbitalize`, `C12_what_is_computed_instead`, `C18_rotational_invariance`, `C20_experimental_accepts_only`, `C20_experimental_agrees`, `C28_channels`, `C28_closed_shell`, `C28_reduced_variables_scale`, `C28_spin_symmetry`, `C28_totals`, `C29_Heaviside`, `C29_formula_conditional`, `C30_mixture_never_gets_orbitals`, `C30_mixture_with_mgga_component_refuted`, `C31_semilocality`, `C32_exchange_ignores_s1`, `C33_calls_refuted`, `C33_nonpositive_partial`, `C33_nonpositive_refuted`, `C34_every_formula_callable_refuted`, `C34_exceptions`, `C36_closed_shell_calls_exact`, `C36_closed_shell_exact`, `C36_exchange_scaling_calls_exact`, `C36_exchange_scaling_exact`, `C36_kinetic_scaling_calls_exact`, `C36_kinetic_scaling_exact`, `C36_spin_flip_calls_exact`, `C36_spin_flip_exact`, `C36_spin_scaling_calls_exact`, `C36_spin_scaling_exact`, `C37_calls_refuted`, `C37_nonnegative_partial`, `C37_nonnegative_refuted`, `C38_lieb_oxford_partial`, `C38_lieb_oxford_refuted`, `C39_differentiable_off_kinks`, `C39_exchange_partial`, `C39_perdew_zunger_refuted`, `C39_polarized_partial`, `C39_unpolarized_partial`, `C43_nonpositive_partial`, `C43_nonpositive_refuted`, `C43_unpolarized_partial`, `C44_functions`, `C44_operators`, `C44_powers`
<!-- end assumptions -->

## How each property is proved

* C01-C05 (formulas): a verified normaliser.  Values are generalised monomials with rational
  exponents over interned atoms; conditionals are decided from the sign of what is known or kept as
  atoms.  If the normal forms of two programs coincide, their values agree wherever both are
  defined (`NormThm.v`).  Each functional is then a run of the checker on its own text by
  `vm_compute`; the theorem ranges over all real inputs, parameters and meanings of the special
  functions.  The list of functionals is finite because the repository's is.
* C06, C33: a verified abstract interpretation with intervals, signs and linear facts
  (`AbsintThm3.v`), and two rules that look through names (`AbsintSpecial.v`): the Perdew-Wang sum
  `A (1 + a r) ln (1 + 1 / d)` against its neighbours, and the spin interpolation.  With it the statements C01-C05 lose their definedness hypothesis (`Exact.v`) and
  are carried to the callable, from densities and orbitals to the energy (`Library.v`).
  Without the analysis they hold of the numbers the callable returns (`Callable.v`).
  Interval bounds are dyadic numbers, rounded outwards to a number of digits a setting gives; powers
  and roots come from integer roots and Newton steps, `exp`, `ln` and `atan` from partial sums with
  proved remainders (`Series.v`).
* C36, and the refutations of C01-C05, C33, C37 and C38: the same interval analysis at a single
  rational point; two values differ if their intervals are disjoint (`Refute.v`).  C37: the sign of
  the interval over all inputs.  C38: the interval at closed-shell density 1, carried to every density
  by the coordinate scaling (C03), and to both spins by the spin scaling (C04).  C43: as C33; its
  refutations are calls, with fields and orbitals of rational values (`Corr.v`).
* C39: the value of a formula is differentiable if no root, absolute value, comparison or real power
  in it is at its kink (`Smooth.v`, induction over expressions); paths of densities and orbitals give
  paths of arguments (`SmoothLib.v`); the interval analysis shows that the kinks are not met
  (`SmoothCheck.v`).  Differentiability is that of the function over the reals, not of the program
  JAX derives from it: a NaN in the derivative of a branch not taken is not modelled.
* C08: for each of the 522 texts a checker compares the raw text, read as Maple's output denotes it,
  with the generated module (`TranslateThm.v`).  C09, C10: induction over digits, over balanced text
  and over tokens, for all lines.
* C07, C11, C12, C16, C20, C30, C31: case analysis and induction over trees of components
  (`ImplThm*.v`, `RecordsThm*.v`).  C17-C19: real vector algebra in any dimension; derivatives are
  characterised by Frechet differentiability (`Deriv.v`).
* C13-C15, C26: the constructor as a function of Python's call arguments.  C21-C24: induction over
  structures and dictionaries.  C25, C35: grammars of C files in libxc's layout, and what the
  generator finds in every file of the grammar.  C44: each function and operator as an equation
  that determines its result.  C45: induction over the fuel for soundness, over the trees for
  completeness with the fuel the parser has.  C27: induction over listings.  C28: real powers.
  C40, C41: the tree after each step of the rule is known by what a path leads to (`LayoutThm.v`).
  C42: induction over the imports.
  C29: case analysis.  C32, C34: a scoping check with a soundness proof, run on every text.

A theorem whose name ends in `_partial` covers part of the property's quantifier; the note in
MANIFEST.json says what is missing.  A theorem whose name ends in `_refuted` shows that the property
fails on the inputs it names.

## Where the code and the properties disagree

1. `invoke` in `python_template.jinja` passes five arguments in its DEORBITALIZE branch, which
   takes four (TypeError).  The branch is never reached: `get_maple_name` returns `""` for every
   functional with components.  A deorbitalized functional is evaluated as a mixture whose
   coefficients libxc never set (C12).
2. `x = (x or default)` replaces an explicit `0.0` by the default; the experimental interface does
   not (C13).
3. `cam_*` and `nlc_*` are attached only when the functional has no formula of its own (C15).
4. A mixture that is not itself a meta-GGA never forwards the orbitals (C30).
5. Two parameter names that differ in a removed character give one Python name, and every call of
   that constructor fails; Python keywords other than `lambda` are not renamed (C14, C26).
6. `dict_to_namedtuple` loses an entry when both `lambda` and `lambda_` are present, and fails on a
   list of numbers (C22).
7. `wrap.py` pairs an init function that allocates nothing with the next allocation, gives a second
   struct the members of the first, and splits a two-word type (C25); an include of a work file
   without an include of a Maple file raises IndexError (C35).
8. `post_process`: an exponent with a leading zero changes the literal (C09); two cube roots on one
   line, or one inside a call argument, are rewritten wrongly (C10).  Neither occurs in the shipped
   files (C08).
9. `lax_cond` does not promote integer arrays (C29).
10. Two Maple files of one base name in different folders give the same rule twice; a second dot in
    a file name gives a wrong path (C27).
11. Twelve shipped functionals raise NameError on every input (C34).
12. `gga_x_lb`, `mgga_x_2d_prp10`, `mgga_x_tb09` and `lda_xc_ksdt` are not symmetric in the spins
    (C02; proved for the first).
13. Eleven functionals, among them `mgga_x_scan` and its four variants, divide by zero at zero
    gradient (C06).  For some of them floating-point infinities give the right limit afterwards.
14. 18 exchange and 2 kinetic functionals do not scale as C03 says: those of two dimensions, with a
    range separation, or with dimensionful constants.  12 functionals without parameters miss the
    uniform limit, others at some of their parameters (C05).  `mgga_x_gvt4` is positive somewhere (C33).
15. `lda_c_pz` is discontinuous at Wigner-Seitz radius 1 with its published parameters (C39).
16. The repository rule ignores the return codes of mkdir and mv: it succeeds on an archive without
    formulas, and the package then has no module (C40).
17. A module called like a name that `impl/__init__.py` uses is not imported (C42).
18. Ten correlation functionals are positive somewhere, among them `gga_c_lyp` with its published
    parameters (C43).
