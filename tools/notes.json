{
 "C01": {
  "note": "Missing: 17 of the 261 functionals, for which it is false (C01_closed_shell_refuted); that numbers are returned, for the 70 more that are not in the first list. C01_closed_shell_partial: both spin modes return the same number, 174 functionals, parameters of the signs in Domains.v. C01_closed_shell_returned_partial: for 244 functionals, any parameters, whenever both calls return numbers these are equal. C01_closed_shell_formula_partial: the same of the formulas. C01_calls_refuted: the 17 as calls of the returned function.",
  "status": "partial"
 },
 "C02": {
  "note": "Missing: 4 of the 261 functionals (3 for which it is false, C36_spin_flip_exact, and mgga_x_tb09, which cannot be called); that numbers are returned, for the 72 more that are not in the first list. C02_spin_flip_partial: the exchanged density returns the same number, 185 functionals. C02_spin_flip_returned_partial: 257 functionals, whenever both calls return numbers. C02_spin_flip_formula_partial: the same of the formulas. C02_spin_flip_refuted: gga_x_lb, which reads one spin channel. C02_calls_refuted: the 3 functionals as calls of the returned function.",
  "status": "partial"
 },
 "C03": {
  "note": "Missing: the exchange and kinetic functionals outside the lists, for which it is false (C36) or which cannot be called. Exchange by g: 57 functionals return numbers that scale, 92 of 124 scale whenever numbers are returned. Kinetic by g^2: 22 and 29, of 31. The _formula_ theorems say the same of the formulas. The _refuted theorems: 18 exchange and 2 kinetic functionals that scale otherwise. C03_calls_refuted: all 30 exchange and 2 kinetic exceptions as calls of the returned function.",
  "status": "partial"
 },
 "C04": {
  "note": "Missing: 13 functionals for which it is false (C36) and mgga_x_tb09, which cannot be called; that numbers are returned, outside the first list. 96 functionals return numbers with the property, 140 of 155 have it whenever numbers are returned, and so have their formulas. C04_spin_scaling_refuted: gga_x_lb. C04_calls_refuted: the 13 as calls of the returned function.",
  "status": "partial"
 },
 "C05": {
  "note": "Missing: the exchange and kinetic functionals outside the lists; some of them do not have the limit. 34 exchange and 15 kinetic functionals return a number equal to the uniform gas; 51 and 19 do whenever they return a number, and so do their formulas. The _refuted theorems: 10 exchange and 2 kinetic functionals without parameters that miss the limit. C05_calls_refuted: the same as calls of the returned function, with orbitals of the uniform gas. C05_exchange_factor_partial and C05_kinetic_factor_partial: for 15 more exchange and 7 more kinetic functionals the energy at a uniform density is that of the uniform gas times a factor in the parameters (4 AA / (9 pi) for mgga_x_gdme, alpha for lda_x, a[0] + b[0] for m08, ...), so the limit holds exactly where that factor is one; four of the rules ask for a value of one parameter, one for a nonzero denominator. C05_parameters_refuted: calls of 38 exchange and 6 kinetic functionals with given parameters that miss the limit. C05_remaining lists the 25 of 155 functionals of which none of this says anything.",
  "status": "partial"
 },
 "C06": {
  "note": "Missing: 76 of the 261 functionals, which call undefined special functions, are undefined somewhere, or need inequalities the interval analysis does not see. 185 functionals in both spin modes, through the callable; 185 polarized and 187 unpolarized formulas; the parameter ranges are in Domains.v, among them zeta_threshold at most 1/8. C06_zero_gradient_refuted: 11 functionals without a value at zero gradient. C06_calls_refuted: ten of them return no number in either spin mode; the eleventh, gga_x_fd_lb94, cannot be called.",
  "status": "partial"
 },
 "C07": {
  "note": "The screening of impl/python_template.jinja, through the whole callable, for any formula."
 },
 "C08": {
  "note": "All 522 shipped texts, all inputs, all records, all meanings of the special functions. The second theorem is an equality of partial functions. The pi literal of rule 5 does not occur in the shipped texts, so no reading of it is assumed."
 },
 "C09": {
  "note": "All literals digits.digits e [-] exponent whose exponent is negative, zero or without a leading zero, and all lines made of such literals and text free of 0e / e0. A leading zero in the exponent, and a significand without a point, are refuted with witnesses; neither occurs in Maple output or in the shipped files."
 },
 "C10": {
  "note": "All lines with one cube root whose base is a balanced parenthesised expression of any nesting or one identifier or number; the text and the value of the rewritten line. Two roots on a line, and a root inside a call argument, are refuted with witnesses; neither occurs in the shipped files."
 },
 "C11": {
  "note": "Nested mixtures as the weighted sum over the leaves; failure of a component fails the mixture."
 },
 "C12": {
  "note": "False of the code: refuted with a witness (C12_deorbitalized_value_refuted). The other theorems say what the code does instead: a deorbitalized functional is evaluated as a mixture with coefficients read from memory libxc never set, the branch meant for it is unreachable and would fail with TypeError.",
  "status": "partial"
 },
 "C13": {
  "note": "Explicit non-zero values are used and defaults otherwise (C13_explicit_values); an explicit zero is replaced by the default in the main interface (C13_explicit_zero_refuted). The experimental interface has no such exception.",
  "status": "partial"
 },
 "C14": {
  "note": "Missing: functionals whose sanitised parameter names collide, for which the property is false: their constructor fails (C14_colliding_names_fail).",
  "status": "partial"
 },
 "C15": {
  "note": "Holds for mixtures in both interfaces; false for hybrids that have their own formula (C15_hybrids_with_formula_refuted).",
  "status": "partial"
 },
 "C16": {
  "note": "Both directions, for all shapes."
 },
 "C17": {
  "note": "Derivatives are those of the density, characterised by has_grad; any dimension."
 },
 "C18": {
  "note": "All orthogonal maps, any dimension."
 },
 "C19": {
  "note": "Complex orbitals, all numbers of orbitals."
 },
 "C20": {
  "note": "All component trees; also which inputs the experimental interface accepts."
 },
 "C21": {
  "note": "libxc structures are arbitrary finite trees of field values."
 },
 "C22": {
  "note": "Holds for dictionaries with usable keys; the collision of a key lambda with an existing lambda_ is refuted separately, and a list of numbers fails."
 },
 "C23": {
  "note": "All strings; the three implementations agree."
 },
 "C24": {
  "note": "All structures and registries."
 },
 "C25": {
  "note": "Proved for every file with one struct definition in which every init function before the last allocation allocates (C25_struct_and_inits_registered, C25_parameters_read, C25_nothing_registered); a file that defines an allocated struct other than once is refused (C25_not_one_definition_refused). False beyond that: an init function that allocates nothing takes the registration of the next one, a second struct is registered with the members of the first, a two-word type leaves a word among the members (the three refuted theorems).",
  "status": "partial"
 },
 "C26": {
  "note": "Holds for names in libxc's format other than Python keywords; refuted for keywords other than lambda and for two names that differ only in the character removed.",
  "status": "partial"
 },
 "C27": {
  "note": "All listings. The rule-name condition is exact (iff); distinct base names alone are not enough (refuted with a witness), and an entry with a second dot is read under a wrong path (refuted with a witness). C27_top_generator: the unused gen_repo/gen_build.py reads the same listing when no name has a second dot and none is hidden; otherwise they differ (example).",
  "status": "partial"
 },
 "C28": {
  "note": "All kernels and dimensions; powers and roots of positive reals. C28_channels and C28_totals say what the polarised program hands to each argument of the kernel."
 },
 "C29": {
  "note": "All conditions and operands but integer arrays, which the helper does not promote (C29_integer_arrays_refuted).",
  "status": "partial"
 },
 "C30": {
  "note": "False of the code: refuted with a witness. C30_mixture_never_gets_orbitals gives the exact behaviour.",
  "status": "partial"
 },
 "C31": {
  "note": "All pairs of densities and orbitals agreeing at the point."
 },
 "C32": {
  "note": "All shipped exchange formulas (C32_all_exchange says the list is complete)."
 },
 "C33": {
  "note": "Missing: the exchange functionals outside the list of 36. Both spin modes, through the callable. C33_nonpositive_refuted: mgga_x_gvt4. C33_calls_refuted: it returns a positive number.",
  "status": "partial"
 },
 "C34": {
  "note": "All 261 formulas. The claim without the exception list is refuted."
 },
 "C35": {
  "note": "For files made of include lines and other lines. Several includes of a kind and a work include alone are refused with an exception."
 },
 "C36": {
  "note": "Exceptions are refuted at one point each with exactly evaluated bounds; a functional with parameters is refuted at parameter values written in RunPrecise.v (1/2 unless said otherwise), not at libxc's. The _calls_exact theorems say the same of the returned functions, in three dimensions."
 },
 "C37": {
  "status": "partial",
  "note": "Missing: 15 of the 31 kinetic functionals, among them mgga_k_gea2, for which it is false (C37_nonnegative_refuted). 16 functionals, both spin modes, through the callable, parameters of the signs in FamKinetic.v. C37_calls_refuted: it returns a negative number."
 },
 "C38": {
  "status": "partial",
  "note": "Shown, through the callable and in both spin modes, for lda_x, PBE, PBEA, RPBE, WC, lsPBE and lsRPBE exchange with the parameter ranges in RunOxford.v. False for nine others, among them B88, G96, OPTX and PW86 with their published parameters (C38_lieb_oxford_refuted). Missing: the other exchange functionals."
 },
 "C39": {
  "status": "partial",
  "note": "C39_differentiable_off_kinks is for every functional and every tree of components. That a formula has no kink at any physical point is shown for 111 functionals (and 38 more at non-zero gradient) spin-unpolarized, 52 (12) spin-polarized, and 54 (22) exchange and kinetic energies spin-polarized above the thresholds. False for lda_c_pz, which jumps at Wigner-Seitz radius 1 with its published parameters (C39_perdew_zunger_refuted). Missing: the other functionals; NaNs that reverse-mode differentiation lets through a branch that is not taken."
 },
 "C40": {
  "status": "partial",
  "note": "Proved for every archive with the parts of a release (releasable in LayoutThm.v: the three folders, the header, core.py to which the patch applies, and no entry at a name the rule wants to use), except that a missing part is not noticed: the return codes of mkdir and mv are ignored, and without the folder of formulas the rule succeeds with no module (C40_success_complete_refuted). The file system, mv, mkdir, rctx.delete, patch and symlink are written down as functions on trees; patches are arbitrary functions on the one file they touch."
 },
 "C41": {
  "status": "proved",
  "note": "All hosts; version parts and flags without line breaks. A script that raises prints nothing; the interpreter is what the scripts ask of it."
 },
 "C42": {
  "status": "proved",
  "note": "All listings and lists of names with a family; all 261 shipped modules. For other names it is false: a file called like a name impl/__init__.py uses (glob, join, ...) is not imported (C42_any_name_refuted). Namespaces are lists of bindings; dunder attributes are not modelled."
 },
 "C43": {
  "status": "partial",
  "note": "Proved of the callable for five correlation functionals and one exchange-correlation functional in both spin modes, and for seven more unpolarised (parameters with the published signs); for all densities, gradients and orbitals. False of ten, where a call with a positive result is given, nine of them without parameters (C43_nonpositive_refuted). Missing: the other correlation formulas, where interval analysis loses the sign."
 },
 "C44": {
  "status": "proved",
  "note": "Over the exact reals. C44_functions: thirteen elementary functions, as Maple writes them, as the generated module has them and through post_process. C44_operators: + - * / **, the three comparisons, the conditional, the sign. C44_powers: whole exponents and roots. The special functions are left arbitrary (class interp of Semantics.v)."
 },
 "C45": {
  "status": "proved",
  "note": "C45_tokens: the longest-match rule of the Python lexer, numbers with their value; both directions. C45_lines: both directions. A dotted path or a constant subscript is one word. Chained comparisons and the operators of Python that no formula contains are not in the grammar."
 }
}