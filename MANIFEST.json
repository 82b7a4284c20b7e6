{
 "claims": [
  {
   "property": "C01",
   "status": "partial",
   "theorems": [
    "C01_closed_shell_returned_partial",
    "C01_calls_refuted",
    "C01_closed_shell_refuted",
    "C01_closed_shell_partial",
    "C01_closed_shell_formula_partial"
   ],
   "note": "Missing: 17 of the 261 functionals, for which it is false (C01_closed_shell_refuted); that numbers are returned, for the 70 more that are not in the first list. C01_closed_shell_partial: both spin modes return the same number, 174 functionals, parameters of the signs in Domains.v. C01_closed_shell_returned_partial: for 244 functionals, any parameters, whenever both calls return numbers these are equal. C01_closed_shell_formula_partial: the same of the formulas. C01_calls_refuted: the 17 as calls of the returned function."
  },
  {
   "property": "C02",
   "status": "partial",
   "theorems": [
    "C02_spin_flip_returned_partial",
    "C02_calls_refuted",
    "C02_spin_flip_partial",
    "C02_spin_flip_formula_partial",
    "C02_spin_flip_refuted"
   ],
   "note": "Missing: 4 of the 261 functionals (3 for which it is false, C36_spin_flip_exact, and mgga_x_tb09, which cannot be called); that numbers are returned, for the 72 more that are not in the first list. C02_spin_flip_partial: the exchanged density returns the same number, 185 functionals. C02_spin_flip_returned_partial: 257 functionals, whenever both calls return numbers. C02_spin_flip_formula_partial: the same of the formulas. C02_spin_flip_refuted: gga_x_lb, which reads one spin channel. C02_calls_refuted: the 3 functionals as calls of the returned function."
  },
  {
   "property": "C03",
   "status": "partial",
   "theorems": [
    "C03_exchange_scaling_returned_partial",
    "C03_kinetic_scaling_returned_partial",
    "C03_calls_refuted",
    "C03_exchange_scaling_partial",
    "C03_kinetic_scaling_partial",
    "C03_exchange_scaling_formula_partial",
    "C03_kinetic_scaling_formula_partial",
    "C03_exchange_scaling_refuted",
    "C03_kinetic_scaling_refuted"
   ],
   "note": "Missing: the exchange and kinetic functionals outside the lists, for which it is false (C36) or which cannot be called. Exchange by g: 57 functionals return numbers that scale, 92 of 124 scale whenever numbers are returned. Kinetic by g^2: 22 and 29, of 31. The _formula_ theorems say the same of the formulas. The _refuted theorems: 18 exchange and 2 kinetic functionals that scale otherwise. C03_calls_refuted: all 30 exchange and 2 kinetic exceptions as calls of the returned function."
  },
  {
   "property": "C04",
   "status": "partial",
   "theorems": [
    "C04_spin_scaling_returned_partial",
    "C04_calls_refuted",
    "C04_spin_scaling_partial",
    "C04_spin_scaling_formula_partial",
    "C04_spin_scaling_refuted"
   ],
   "note": "Missing: 13 functionals for which it is false (C36) and mgga_x_tb09, which cannot be called; that numbers are returned, outside the first list. 96 functionals return numbers with the property, 140 of 155 have it whenever numbers are returned, and so have their formulas. C04_spin_scaling_refuted: gga_x_lb. C04_calls_refuted: the 13 as calls of the returned function."
  },
  {
   "property": "C05",
   "status": "partial",
   "theorems": [
    "C05_uniform_exchange_returned_partial",
    "C05_uniform_kinetic_returned_partial",
    "C05_calls_refuted",
    "C05_exchange_factor_partial",
    "C05_kinetic_factor_partial",
    "C05_parameters_refuted",
    "C05_uniform_exchange_partial",
    "C05_uniform_kinetic_partial",
    "C05_uniform_exchange_formula_partial",
    "C05_uniform_kinetic_formula_partial",
    "C05_uniform_exchange_refuted",
    "C05_uniform_kinetic_refuted"
   ],
   "note": "Missing: the exchange and kinetic functionals outside the lists; some of them do not have the limit. 34 exchange and 15 kinetic functionals return a number equal to the uniform gas; 51 and 19 do whenever they return a number, and so do their formulas. The _refuted theorems: 10 exchange and 2 kinetic functionals without parameters that miss the limit. C05_calls_refuted: the same as calls of the returned function, with orbitals of the uniform gas. C05_exchange_factor_partial and C05_kinetic_factor_partial: for 15 more exchange and 7 more kinetic functionals the energy at a uniform density is that of the uniform gas times a factor in the parameters (4 AA / (9 pi) for mgga_x_gdme, alpha for lda_x, a[0] + b[0] for m08, ...), so the limit holds exactly where that factor is one; four of the rules ask for a value of one parameter, one for a nonzero denominator. C05_parameters_refuted: calls of 38 exchange and 6 kinetic functionals with given parameters that miss the limit. C05_remaining lists the 25 of 155 functionals of which none of this says anything."
  },
  {
   "property": "C06",
   "status": "partial",
   "theorems": [
    "C06_calls_refuted",
    "C06_returns_number_partial",
    "C06_defined_pol_partial",
    "C06_defined_unpol_partial",
    "C06_zero_gradient_refuted"
   ],
   "note": "Missing: 76 of the 261 functionals, which call undefined special functions, are undefined somewhere, or need inequalities the interval analysis does not see. 185 functionals in both spin modes, through the callable; 185 polarized and 187 unpolarized formulas; the parameter ranges are in Domains.v, among them zeta_threshold at most 1/8. C06_zero_gradient_refuted: 11 functionals without a value at zero gradient. C06_calls_refuted: ten of them return no number in either spin mode; the eleventh, gga_x_fd_lb94, cannot be called."
  },
  {
   "property": "C07",
   "status": "proved",
   "theorems": [
    "C07_small_density_screening"
   ],
   "note": "The screening of impl/python_template.jinja, through the whole callable, for any formula."
  },
  {
   "property": "C08",
   "status": "proved",
   "theorems": [
    "C08_value_kept",
    "C08_nothing_else"
   ],
   "note": "All 522 shipped texts, all inputs, all records, all meanings of the special functions. The second theorem is an equality of partial functions. The pi literal of rule 5 does not occur in the shipped texts, so no reading of it is assumed."
  },
  {
   "property": "C09",
   "status": "proved",
   "theorems": [
    "C09_literal",
    "C09_line",
    "C09_leading_zero_refuted",
    "C09_no_point_refuted"
   ],
   "note": "All literals digits.digits e [-] exponent whose exponent is negative, zero or without a leading zero, and all lines made of such literals and text free of 0e / e0. A leading zero in the exponent, and a significand without a point, are refuted with witnesses; neither occurs in Maple output or in the shipped files."
  },
  {
   "property": "C10",
   "status": "proved",
   "theorems": [
    "C10_parenthesised_text",
    "C10_parenthesised",
    "C10_word_text",
    "C10_word",
    "C10_several_roots_refuted",
    "C10_call_argument_refuted"
   ],
   "note": "All lines with one cube root whose base is a balanced parenthesised expression of any nesting or one identifier or number; the text and the value of the rewritten line. Two roots on a line, and a root inside a call argument, are refuted with witnesses; neither occurs in the shipped files."
  },
  {
   "property": "C11",
   "status": "proved",
   "theorems": [
    "C11_mixture_is_weighted_sum",
    "C11_mixture_tree",
    "C11_mixture_fails"
   ],
   "note": "Nested mixtures as the weighted sum over the leaves; failure of a component fails the mixture."
  },
  {
   "property": "C12",
   "status": "partial",
   "theorems": [
    "C12_deorbitalized_value_refuted",
    "C12_what_is_computed_instead",
    "C12_deorbitalize_branch_fails",
    "C12_deorbitalize_branch_unreachable",
    "C12_experimental_deorbitalize"
   ],
   "note": "False of the code: refuted with a witness (C12_deorbitalized_value_refuted). The other theorems say what the code does instead: a deorbitalized functional is evaluated as a mixture with coefficients read from memory libxc never set, the branch meant for it is unreachable and would fail with TypeError."
  },
  {
   "property": "C13",
   "status": "partial",
   "theorems": [
    "C13_explicit_values_partial",
    "C13_explicit_zero_refuted",
    "C13_experimental_explicit_values"
   ],
   "note": "Explicit non-zero values are used and defaults otherwise (C13_explicit_values); an explicit zero is replaced by the default in the main interface (C13_explicit_zero_refuted). The experimental interface has no such exception."
  },
  {
   "property": "C14",
   "status": "partial",
   "theorems": [
    "C14_defaults_and_order_partial",
    "C14_colliding_names_fail",
    "C14_unknown_keyword"
   ],
   "note": "Missing: functionals whose sanitised parameter names collide, for which the property is false: their constructor fails (C14_colliding_names_fail)."
  },
  {
   "property": "C15",
   "status": "partial",
   "theorems": [
    "C15_mixtures_show_attributes_partial",
    "C15_hybrids_with_formula_refuted",
    "C15_experimental_mixtures"
   ],
   "note": "Holds for mixtures in both interfaces; false for hybrids that have their own formula (C15_hybrids_with_formula_refuted)."
  },
  {
   "property": "C16",
   "status": "proved",
   "theorems": [
    "C16_rejected_iff_malformed"
   ],
   "note": "Both directions, for all shapes."
  },
  {
   "property": "C17",
   "status": "proved",
   "theorems": [
    "C17_gradient_products_polarized",
    "C17_gradient_product_unpolarized"
   ],
   "note": "Derivatives are those of the density, characterised by has_grad; any dimension."
  },
  {
   "property": "C18",
   "status": "proved",
   "theorems": [
    "C18_rotational_invariance",
    "C18_local_ingredients"
   ],
   "note": "All orthogonal maps, any dimension."
  },
  {
   "property": "C19",
   "status": "proved",
   "theorems": [
    "C19_tau_nonnegative",
    "C19_tau_additive",
    "C19_tau_unitary",
    "C19_tau_phase",
    "C19_von_weizsaecker_bound",
    "C19_tau_is_orbital_tau"
   ],
   "note": "Complex orbitals, all numbers of orbitals."
  },
  {
   "property": "C20",
   "status": "proved",
   "theorems": [
    "C20_experimental_agrees",
    "C20_experimental_accepts_only"
   ],
   "note": "All component trees; also which inputs the experimental interface accepts."
  },
  {
   "property": "C21",
   "status": "proved",
   "theorems": [
    "C21_records_mirror_libxc",
    "C21_get_p_fails_only_with_runtime_error",
    "C21_record_is_what_is_evaluated",
    "C21_array_elements"
   ],
   "note": "libxc structures are arbitrary finite trees of field values."
  },
  {
   "property": "C22",
   "status": "proved",
   "theorems": [
    "C22_conversion_loses_nothing",
    "C22_lambda_collision_refuted",
    "C22_list_of_numbers_fails"
   ],
   "note": "Holds for dictionaries with usable keys; the collision of a key lambda with an existing lambda_ is refuted separately, and a list of numbers fails."
  },
  {
   "property": "C23",
   "status": "proved",
   "theorems": [
    "C23_family_of_a_name",
    "C23_family_unique",
    "C23_generators_agree"
   ],
   "note": "All strings; the three implementations agree."
  },
  {
   "property": "C24",
   "status": "proved",
   "theorems": [
    "C24_formula_resolution",
    "C24_special_names"
   ],
   "note": "All structures and registries."
  },
  {
   "property": "C25",
   "status": "partial",
   "theorems": [
    "C25_struct_and_inits_registered_partial",
    "C25_nothing_registered",
    "C25_parameters_read",
    "C25_no_parameters",
    "C25_not_one_definition_refused",
    "C25_init_without_allocation_refuted",
    "C25_two_structs_refuted",
    "C25_two_word_type_refuted"
   ],
   "note": "Proved for every file with one struct definition in which every init function before the last allocation allocates (C25_struct_and_inits_registered, C25_parameters_read, C25_nothing_registered); a file that defines an allocated struct other than once is refused (C25_not_one_definition_refused). False beyond that: an init function that allocates nothing takes the registration of the next one, a second struct is registered with the members of the first, a two-word type leaves a word among the members (the three refuted theorems)."
  },
  {
   "property": "C26",
   "status": "partial",
   "theorems": [
    "C26_names_usable_partial",
    "C26_names_distinct_partial",
    "C26_names_distinct_refuted",
    "C26_keywords_refuted"
   ],
   "note": "Holds for names in libxc's format other than Python keywords; refuted for keywords other than lambda and for two names that differ only in the character removed."
  },
  {
   "property": "C27",
   "status": "partial",
   "theorems": [
    "C27_rule_names_partial",
    "C27_rule_names_refuted",
    "C27_one_module_per_file",
    "C27_library_exports",
    "C27_maple_files_partial",
    "C27_maple_files_refuted",
    "C27_prebuilt_complete",
    "C27_shipped_names",
    "C27_libxc",
    "C27_top_generator"
   ],
   "note": "All listings. The rule-name condition is exact (iff); distinct base names alone are not enough (refuted with a witness), and an entry with a second dot is read under a wrong path (refuted with a witness). C27_top_generator: the unused gen_repo/gen_build.py reads the same listing when no name has a second dot and none is hidden; otherwise they differ (example)."
  },
  {
   "property": "C28",
   "status": "proved",
   "theorems": [
    "C28_closed_shell",
    "C28_spin_symmetry",
    "C28_channels",
    "C28_totals",
    "C28_reduced_variables_scale",
    "C28_arguments"
   ],
   "note": "All kernels and dimensions; powers and roots of positive reals. C28_channels and C28_totals say what the polarised program hands to each argument of the kernel."
  },
  {
   "property": "C29",
   "status": "partial",
   "theorems": [
    "C29_selects_partial",
    "C29_ignores_other_partial",
    "C29_integer_arrays_refuted",
    "C29_formula_conditional",
    "C29_Heaviside"
   ],
   "note": "All conditions and operands but integer arrays, which the helper does not promote (C29_integer_arrays_refuted)."
  },
  {
   "property": "C30",
   "status": "partial",
   "theorems": [
    "C30_mixture_with_mgga_component_refuted",
    "C30_mixture_never_gets_orbitals"
   ],
   "note": "False of the code: refuted with a witness. C30_mixture_never_gets_orbitals gives the exact behaviour."
  },
  {
   "property": "C31",
   "status": "proved",
   "theorems": [
    "C31_semilocality"
   ],
   "note": "All pairs of densities and orbitals agreeing at the point."
  },
  {
   "property": "C32",
   "status": "proved",
   "theorems": [
    "C32_exchange_ignores_s1",
    "C32_all_exchange"
   ],
   "note": "All shipped exchange formulas (C32_all_exchange says the list is complete)."
  },
  {
   "property": "C33",
   "status": "partial",
   "theorems": [
    "C33_calls_refuted",
    "C33_nonpositive_partial",
    "C33_nonpositive_refuted"
   ],
   "note": "Missing: the exchange functionals outside the list of 36. Both spin modes, through the callable. C33_nonpositive_refuted: mgga_x_gvt4. C33_calls_refuted: it returns a positive number."
  },
  {
   "property": "C34",
   "status": "proved",
   "theorems": [
    "C34_exceptions",
    "C34_every_formula_callable_refuted"
   ],
   "note": "All 261 formulas. The claim without the exception list is refuted."
  },
  {
   "property": "C35",
   "status": "proved",
   "theorems": [
    "C35_own_maple_name",
    "C35_several_refused",
    "C35_work_without_maple_refused",
    "C35_record_names_it"
   ],
   "note": "For files made of include lines and other lines. Several includes of a kind and a work include alone are refused with an exception."
  },
  {
   "property": "C36",
   "status": "proved",
   "theorems": [
    "C36_closed_shell_calls_exact",
    "C36_spin_flip_calls_exact",
    "C36_exchange_scaling_calls_exact",
    "C36_kinetic_scaling_calls_exact",
    "C36_spin_scaling_calls_exact",
    "C36_closed_shell_exact",
    "C36_spin_flip_exact",
    "C36_exchange_scaling_exact",
    "C36_kinetic_scaling_exact",
    "C36_spin_scaling_exact"
   ],
   "note": "Exceptions are refuted at one point each with exactly evaluated bounds; a functional with parameters is refuted at parameter values written in RunPrecise.v (1/2 unless said otherwise), not at libxc's. The _calls_exact theorems say the same of the returned functions, in three dimensions."
  },
  {
   "property": "C37",
   "status": "partial",
   "theorems": [
    "C37_calls_refuted",
    "C37_nonnegative_partial",
    "C37_nonnegative_refuted"
   ],
   "note": "Missing: 15 of the 31 kinetic functionals, among them mgga_k_gea2, for which it is false (C37_nonnegative_refuted). 16 functionals, both spin modes, through the callable, parameters of the signs in FamKinetic.v. C37_calls_refuted: it returns a negative number."
  },
  {
   "property": "C38",
   "status": "partial",
   "theorems": [
    "C38_lieb_oxford_partial",
    "C38_lieb_oxford_refuted"
   ],
   "note": "Shown, through the callable and in both spin modes, for lda_x, PBE, PBEA, RPBE, WC, lsPBE and lsRPBE exchange with the parameter ranges in RunOxford.v. False for nine others, among them B88, G96, OPTX and PW86 with their published parameters (C38_lieb_oxford_refuted). Missing: the other exchange functionals."
  },
  {
   "property": "C39",
   "status": "partial",
   "theorems": [
    "C39_differentiable_off_kinks",
    "C39_unpolarized_partial",
    "C39_polarized_partial",
    "C39_exchange_partial",
    "C39_perdew_zunger_refuted"
   ],
   "note": "C39_differentiable_off_kinks is for every functional and every tree of components. That a formula has no kink at any physical point is shown for 111 functionals (and 38 more at non-zero gradient) spin-unpolarized, 52 (12) spin-polarized, and 54 (22) exchange and kinetic energies spin-polarized above the thresholds. False for lda_c_pz, which jumps at Wigner-Seitz radius 1 with its published parameters (C39_perdew_zunger_refuted). Missing: the other functionals; NaNs that reverse-mode differentiation lets through a branch that is not taken."
  },
  {
   "property": "C40",
   "status": "partial",
   "theorems": [
    "C40_repository_layout",
    "C40_build_files",
    "C40_labels",
    "C40_patch",
    "C40_success_complete_refuted"
   ],
   "note": "Proved for every archive with the parts of a release (releasable in LayoutThm.v: the three folders, the header, core.py to which the patch applies, and no entry at a name the rule wants to use), except that a missing part is not noticed: the return codes of mkdir and mv are ignored, and without the folder of formulas the rule succeeds with no module (C40_success_complete_refuted). The file system, mv, mkdir, rctx.delete, patch and symlink are written down as functions on trees; patches are arbitrary functions on the one file they touch."
  },
  {
   "property": "C41",
   "status": "proved",
   "theorems": [
    "C41_wheel_tags",
    "C41_only_cpython"
   ],
   "note": "All hosts; version parts and flags without line breaks. A script that raises prints nothing; the interpreter is what the scripts ask of it."
  },
  {
   "property": "C42",
   "status": "proved",
   "theorems": [
    "C42_formulas_found",
    "C42_own_file",
    "C42_shipped_found",
    "C42_any_name_refuted",
    "C42_constructors_found"
   ],
   "note": "All listings and lists of names with a family; all 261 shipped modules. For other names it is false: a file called like a name impl/__init__.py uses (glob, join, ...) is not imported (C42_any_name_refuted). Namespaces are lists of bindings; dunder attributes are not modelled."
  },
  {
   "property": "C43",
   "status": "partial",
   "theorems": [
    "C43_nonpositive_partial",
    "C43_unpolarized_partial",
    "C43_nonpositive_refuted"
   ],
   "note": "Proved of the callable for five correlation functionals and one exchange-correlation functional in both spin modes, and for seven more unpolarised (parameters with the published signs); for all densities, gradients and orbitals. False of ten, where a call with a positive result is given, nine of them without parameters (C43_nonpositive_refuted). Missing: the other correlation formulas, where interval analysis loses the sign."
  },
  {
   "property": "C44",
   "status": "proved",
   "theorems": [
    "C44_functions",
    "C44_operators",
    "C44_powers"
   ],
   "note": "Over the exact reals. C44_functions: thirteen elementary functions, as Maple writes them, as the generated module has them and through post_process. C44_operators: + - * / **, the three comparisons, the conditional, the sign. C44_powers: whole exponents and roots. The special functions are left arbitrary (class interp of Semantics.v)."
  },
  {
   "property": "C45",
   "status": "proved",
   "theorems": [
    "C45_lines",
    "C45_one_tree",
    "C45_tokens",
    "C45_characters",
    "C45_one_tokenisation",
    "C45_shipped"
   ],
   "note": "C45_tokens: the longest-match rule of the Python lexer, numbers with their value; both directions. C45_lines: both directions. A dotted path or a constant subscript is one word. Chained comparisons and the operators of Python that no formula contains are not in the grammar."
  }
 ]
}