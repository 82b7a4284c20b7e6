{"id": "C01", "title": "Closed-shell agreement of the two spin modes", "statement": "For a functional shipped by the library, evaluating it with polarized=False on a density n (gradient square s, Laplacian l, kinetic density tau) gives the same energy density as evaluating it with polarized=True on two equal spin channels n/2 (s/4 for each of the three gradient products, l/2, tau/2).", "quantifier": "every shipped functional; every positive density, gradient, Laplacian and tau with the physical signs, every parameter value of the signs the functional is meant for, every zeta threshold in (0,1), every density threshold", "why_tests_cant": "the pol and unpol formulas are two separately generated straight-line programs; a test samples 100 grid points with the default parameters only", "anchors": ["gen_repo/impl/prebuilt/pol/*.py", "gen_repo/impl/prebuilt/unpol/*.py", "gen_repo/impl/maple_template.jinja:mzk_unpol"]}
{"id": "C02", "title": "Spin-flip symmetry", "statement": "Exchanging the two spin channels of the density, of its gradient products, of its Laplacian and of tau leaves the energy density of a spin-polarized functional unchanged.", "quantifier": "every shipped functional; all positive spin densities, gradients, Laplacians and taus with the physical signs, all parameter values of the signs the functional is meant for, all zeta thresholds in (0,1)", "why_tests_cant": "a test evaluates the formulas at finitely many points; a dropped or swapped spin index can be invisible on a symmetric sample", "anchors": ["gen_repo/impl/prebuilt/pol/*.py"]}
{"id": "C03", "title": "Coordinate scaling of exchange", "statement": "Under uniform scaling of the electron density by a factor g (n -> g^3 n, sigma -> g^8 sigma, Laplacian and tau -> g^5) the energy density of an exchange functional is multiplied by g (kinetic functionals: by g^2).", "quantifier": "every shipped exchange and kinetic functional; all g>0, all positive densities above the density threshold before and after scaling, all gradients, all parameter values of the signs the functional is meant for", "why_tests_cant": "an identity between formulas over a continuum of scale factors; tests never evaluate two scaled densities against each other", "anchors": ["gen_repo/impl/prebuilt/pol/*.py", "gen_repo/impl/prebuilt/unpol/*.py"]}
{"id": "C04", "title": "Spin scaling of exchange", "statement": "The polarized exchange energy per volume splits as half the sum of the unpolarized energies per volume of the doubled spin densities: (n0+n1)*e_pol(n0,n1,s0,s1,s2,...) = (2 n0 e_unpol(2 n0,4 s0,...) + 2 n1 e_unpol(2 n1,4 s2,...))/2.", "quantifier": "every shipped exchange and kinetic functional; all positive spin densities whose polarization is not clipped by the zeta threshold, all gradients, all parameter values of the signs the functional is meant for", "why_tests_cant": "relates two generated programs at three different points over a continuum of inputs", "anchors": ["gen_repo/impl/prebuilt/pol/*.py", "gen_repo/impl/prebuilt/unpol/*.py"]}
{"id": "C05", "title": "Uniform-gas limit of GGA exchange", "statement": "At zero density gradient a GGA (or meta-GGA in the slowly varying limit) exchange functional returns exactly the LDA exchange energy density.", "quantifier": "every shipped exchange (Slater energy) and kinetic (Thomas-Fermi energy) functional; all positive densities above the thresholds, all parameter values of the signs the functional is meant for", "why_tests_cant": "an exact identity in the density, not a finite table of values", "anchors": ["gen_repo/impl/prebuilt/pol/*.py", "gen_repo/impl/prebuilt/unpol/*.py", "gen_repo/impl/prebuilt/pol/lda_x.py", "gen_repo/impl/prebuilt/pol/gga_x_pbe.py"]}
{"id": "C06", "title": "No undefined arithmetic on physical inputs", "statement": "On physical inputs (positive density above the threshold) the formula of a functional never divides by zero, takes the logarithm of a non-positive number or an even root of a negative number on the path that produces the result, so the value is a real number.", "quantifier": "every shipped functional, both spin modes; all positive densities, non-negative gradient squares, parameters of the signs the functional is meant for", "why_tests_cant": "needs every point of an open input region; tests only see that 100 sampled points are not NaN", "anchors": ["gen_repo/impl/prebuilt/pol/*.py", "gen_repo/impl/prebuilt/unpol/*.py"]}
{"id": "C07", "title": "Small-density screening", "statement": "Calling a single (non-mixed) functional at a point where the total density is strictly below the functional's density threshold returns exactly 0, whatever the gradients and orbitals are; at or above the threshold it returns the formula's value. The total is the scalar for an unpolarized and the sum of both channels for a polarized functional.", "quantifier": "all densities, all thresholds, all formulas", "why_tests_cant": "boundary behaviour at equality and for arbitrary gradients cannot be exhausted by sampling", "anchors": ["gen_repo/impl/python_template.jinja:invoke", "gen_repo/experimental.jinja:_filter_small_density"]}
{"id": "C08", "title": "Code translation preserves the formulas", "statement": "The text rewriting that turns Maple's Python output into the shipped JAX module does not change the mathematical meaning of any shipped functional: whenever the Maple text denotes a real number for some input, the rewritten module denotes the same number.", "quantifier": "all inputs and parameters of each of the 261 shipped functionals in both spin modes", "why_tests_cant": "the rewriting is a pipeline of 17 unanchored regular expressions; tests compare final numbers at sampled points", "anchors": ["gen_repo/impl/gen_py.py:post_process", "gen_repo/impl/prebuilt/pol/*.py", "gen_repo/impl/prebuilt/unpol/*.py"]}
{"id": "C09", "title": "Literal normalisation keeps the constant", "statement": "Stripping trailing zeros of a significand and a zero exponent from a numeric literal in Maple's 0.ddd...e+-n format leaves the denoted rational number unchanged.", "quantifier": "all digit strings and exponents in Maple's output format", "why_tests_cant": "infinitely many literals; a rule that eats one digit too many is silent", "anchors": ["gen_repo/impl/gen_py.py:post_process"]}
{"id": "C10", "title": "Cube-root rewriting targets the whole base", "statement": "Rewriting 'base ** (0.1e1 / 0.3e1)' into a cube-root call takes exactly the base of the power: the rewritten assignment denotes the cube root of the value of the base, for a parenthesised or a simple base, provided the line holds one cube root.", "quantifier": "all assignment lines with one cube root whose base is any balanced parenthesised expression or any identifier/number", "why_tests_cant": "needs all nesting depths of parentheses", "anchors": ["gen_repo/impl/gen_py.py:post_process"]}
{"id": "C11", "title": "Mixed functionals are weighted sums", "statement": "Evaluating a functional that libxc defines as a mixture returns the sum of its components' energy densities weighted by the mixing coefficients, recursively for nested mixtures, in the component order of libxc.", "quantifier": "all finite trees of components, all coefficients, all component formulas, all points", "why_tests_cant": "trees are unbounded in width and depth; tests skip every mixed functional", "anchors": ["gen_repo/python_template.jinja:invoke", "tests/test_against_libxc.py"]}
{"id": "C12", "title": "Deorbitalized functionals are evaluated as such", "statement": "A functional that libxc defines as deorbitalized (two meta-GGA components) evaluates its first component with tau replaced by density times the value of the second component.", "quantifier": "all deorbitalized functionals and all inputs", "why_tests_cant": "tests skip these functionals altogether", "anchors": ["gen_repo/python_template.jinja:invoke", "gen_repo/libxc/libxc.cc:get_maple_name", "gen_repo/gen_py.py:check_deorbitalize"]}
{"id": "C13", "title": "Explicit parameter values are honoured", "statement": "A parameter value passed explicitly to a functional's constructor is the value libxc uses for that functional.", "quantifier": "all functionals, all parameters, all float values including 0.0", "why_tests_cant": "the set of values is unbounded and tests never pass a parameter", "anchors": ["gen_repo/python_template.jinja", "gen_repo/experimental.jinja", "gen_repo/utils.py:get_p"]}
{"id": "C14", "title": "Omitted parameters keep libxc's defaults, in libxc's order", "statement": "Omitting parameters passes libxc's default for exactly those, every value reaches the parameter of its own name, and the number of values passed equals the number of parameters libxc expects.", "quantifier": "all parameter lists and all subsets of parameters given explicitly", "why_tests_cant": "combinations are exponential; tests use none", "anchors": ["gen_repo/gen_py.py:get_ext_params", "gen_repo/python_template.jinja", "gen_repo/utils.py:get_p"]}
{"id": "C15", "title": "Every hybrid functional exposes its exact-exchange attributes", "statement": "The callable returned for a hybrid functional has the attributes cam_alpha, cam_beta, cam_omega, nlc_b and nlc_C with libxc's values.", "quantifier": "all hybrid functionals", "why_tests_cant": "depends on how each functional is represented inside libxc; tests never read the attributes", "anchors": ["README.rst:Hybrid Functionals", "gen_repo/python_template.jinja"]}
{"id": "C16", "title": "Inputs are rejected exactly when malformed", "statement": "An evaluation is rejected with an error exactly when the density has a shape other than () or (2,), the spin mode of the functional and the shape disagree, a meta-GGA is called without orbitals, or the orbitals' shape does not fit the spin mode; otherwise it proceeds.", "quantifier": "all shapes of density and orbitals, all functional families, both spin modes", "why_tests_cant": "shapes are an unbounded set", "anchors": ["gen_repo/impl/utils.py:rho_to_arguments"]}
{"id": "C17", "title": "Gradient products are those of real gradients", "statement": "The gradient products handed to a functional satisfy s0>=0, s2>=0, s1^2<=s0*s2 and s0+2*s1+s2 = |grad(n0+n1)|^2; the unpolarized s equals |grad n|^2.", "quantifier": "all densities differentiable at the point, any space dimension", "why_tests_cant": "inequalities over all pairs of vectors", "anchors": ["gen_repo/impl/utils.py:rho_to_arguments"]}
{"id": "C18", "title": "Rotational invariance of the local ingredients", "statement": "Rotating or reflecting the coordinate frame leaves the density, the gradient products, the Laplacian and tau handed to the functional unchanged, hence also the energy density.", "quantifier": "all orthogonal transformations, all gradients, Hessians and orbital gradients, any dimension", "why_tests_cant": "a continuous group of transformations", "anchors": ["gen_repo/impl/utils.py:rho_to_arguments"]}
{"id": "C19", "title": "Kinetic energy density is well behaved", "statement": "tau is non-negative, is additive over orbitals, is unchanged by a phase on each orbital and by any unitary mixing of the orbitals, and is at least |grad n|^2/(8 n) when n is the sum of the squared orbital moduli.", "quantifier": "all numbers of orbitals, all complex orbital values and gradients, all unitary matrices", "why_tests_cant": "unbounded number of orbitals and a continuous group", "anchors": ["gen_repo/impl/utils.py:rho_to_arguments", "README.rst:mGGA"]}
{"id": "C20", "title": "The experimental API computes the same numbers", "statement": "jax_xc.experimental.f(rho[, mo])(r) equals jax_xc.f(polarized)(rho, r[, mo]) for the matching spin mode whenever both are defined.", "quantifier": "all densities, orbitals, points, and all trees of components", "why_tests_cant": "tests compare at sampled points and only for non-mixed functionals", "anchors": ["gen_repo/experimental.jinja:make_epsilon_xc", "gen_repo/python_template.jinja:invoke"]}
{"id": "C21", "title": "Functional records mirror libxc", "statement": "Every scalar attribute, parameter array and component of the record obtained for a functional equals the corresponding field of the libxc structure, recursively for components, and the spin mode requested is the one recorded on every component libxc created with it.", "quantifier": "all libxc structures (finite trees), all field values", "why_tests_cant": "unbounded trees; tests only check that a dict is returned", "anchors": ["gen_repo/libxc/libxc.cc:get_p", "gen_repo/utils.py:dict_to_namedtuple"]}
{"id": "C22", "title": "Dictionary-to-record conversion loses nothing", "statement": "Converting a nested dictionary to a record keeps every entry reachable under its key (with 'lambda' reachable as 'lambda_'), converts nested dictionaries and lists of dictionaries recursively, and invents no field.", "quantifier": "all nested dictionaries with usable keys", "why_tests_cant": "unbounded nesting", "anchors": ["gen_repo/utils.py:dict_to_namedtuple"]}
{"id": "C23", "title": "One family per functional, everywhere", "statement": "The family (lda, gga, mgga) derived from a functional's name is unique and is the same in the code generator, the Maple wrapper generator and the native extension; names with no family are rejected by all three.", "quantifier": "all strings", "why_tests_cant": "an infinite set of names and three independent copies of the rule", "anchors": ["gen_repo/libxc/libxc.cc:name_to_type", "gen_repo/impl/gen_py.py:main", "gen_repo/impl/gen_maple.py:main"]}
{"id": "C24", "title": "Formula resolution", "statement": "A functional is resolved to a formula module exactly when libxc gives it no components (or it is one of the two special-cased names); a functional with components resolves to a mixture; a functional with neither is rejected.", "quantifier": "all libxc structures and registration histories", "why_tests_cant": "all registries and pointer assignments", "anchors": ["gen_repo/libxc/libxc.cc:get_maple_name", "gen_repo/libxc/register.h"]}
{"id": "C25", "title": "Parameter structs are attached to their own functional", "statement": "The wrapper generator registers, for each libxc init function that allocates a parameter struct, that struct with all its fields in order, and no other.", "quantifier": "all C sources in libxc's format", "why_tests_cant": "all layouts of C files", "anchors": ["gen_repo/libxc/wrap.py:wrap_file"]}
{"id": "C26", "title": "Parameter names become distinct Python identifiers", "statement": "Every libxc parameter name of the form ident or ident[index] is turned into a valid, non-keyword Python identifier, and different names stay different.", "quantifier": "all names of that form", "why_tests_cant": "infinitely many names", "anchors": ["gen_repo/gen_py.py:post_process", "gen_repo/gen_py.py:get_ext_params"]}
{"id": "C27", "title": "Generated build is well formed", "statement": "The generated build file has exactly one module target for each Maple file, rule names are pairwise distinct when base names are, and every module target is exported by the library target; the prebuilt directory provides both spin variants of every module.", "quantifier": "all directory listings", "why_tests_cant": "all sets of file names", "anchors": ["gen_repo/impl/gen_build.py:main", "gen_repo/impl/build.jinja", "gen_repo/libxc/gen_build.py:main"]}
{"id": "C28", "title": "Reduced variables of the closed-shell wrapper", "statement": "For any kernel f, the generated unpolarized Maple program at (n,s,l,tau) is f at total density n, zero polarization, and the reduced gradient of the total density; the polarized program of a symmetric kernel is symmetric in the spins.", "quantifier": "all kernels, densities, gradients, Laplacians, taus and space dimensions", "why_tests_cant": "quantifies over all kernels", "anchors": ["gen_repo/impl/maple_template.jinja", "gen_repo/impl/gen_maple.py"]}
{"id": "C29", "title": "Branch selection helper", "statement": "The conditional helper returns its second argument when the condition holds and its third otherwise, and never the other one, integers being promoted to floats.", "quantifier": "all conditions and operands", "why_tests_cant": "values of the unselected operand (including undefined ones) must not matter", "anchors": ["gen_repo/impl/utils.py:lax_cond", "gen_repo/impl/utils.py:Heaviside"]}
{"id": "C30", "title": "Orbital-dependent components inside mixtures receive the orbitals", "statement": "If a mixture contains a meta-GGA component, supplying orbitals makes the evaluation succeed.", "quantifier": "all component trees", "why_tests_cant": "trees are unbounded; tests skip mixtures", "anchors": ["gen_repo/python_template.jinja"]}
{"id": "C31", "title": "Semilocality", "statement": "The energy density at r depends on the density only through its value at r (LDA), additionally its gradient products at r (GGA), additionally its Laplacian and the orbital gradients at r (meta-GGA).", "quantifier": "all pairs of densities/orbitals agreeing in these quantities at r", "why_tests_cant": "quantifies over pairs of functions", "anchors": ["gen_repo/impl/utils.py:rho_to_arguments", "gen_repo/impl/python_template.jinja:invoke"]}
{"id": "C32", "title": "Exchange is independent of the mixed gradient product", "statement": "The polarized energy density of an exchange functional does not depend on the mixed product s1 of the two spin gradients.", "quantifier": "all inputs, parameters and interpretations of the special functions; every one of the shipped functionals named as exchange (*_x, *_x_*)", "why_tests_cant": "independence is a statement about all values of s1", "anchors": ["gen_repo/impl/prebuilt/pol/*.py"]}
{"id": "C33", "title": "Exchange energies are non-positive", "statement": "The exchange energy density of an exchange functional is <= 0.", "quantifier": "every shipped exchange functional, both spin modes; all positive densities, non-negative squared gradients, parameters of the signs the functional is meant for", "why_tests_cant": "an inequality over an open region", "anchors": ["gen_repo/impl/prebuilt/pol/*.py", "gen_repo/impl/prebuilt/unpol/*.py"]}
{"id": "C34", "title": "Which formulas can be called at all", "statement": "Calling any shipped formula on well-formed inputs (right shapes, orbitals for a meta-GGA, a record with the attributes the formula reads) raises no exception: every name the formula reads is a parameter of its family's function, an attribute of the record or assigned before; except for twelve functionals, which call a special function defined nowhere and raise NameError on every input.", "quantifier": "all 261 shipped formulas, both spin modes, all inputs and records", "why_tests_cant": "the failures depend on every line of 522 generated programs; tests skip the functionals that fail", "anchors": ["gen_repo/impl/prebuilt/pol/*.py", "gen_repo/impl/prebuilt/unpol/*.py", "gen_repo/impl/python_template.jinja:invoke", "gen_repo/impl/utils.py"]}
{"id": "C35", "title": "Work functions are tied to their own Maple file", "statement": "The wrapper generator registers, for the work function a libxc file includes, the name of the generated Maple file that same file includes, and the record of a functional with that work function names that Maple file; a file with several of either include is refused.", "quantifier": "all C sources in libxc's format, linked with any other files", "why_tests_cant": "all layouts of C files", "anchors": ["gen_repo/libxc/wrap.py:wrap_file", "gen_repo/libxc/wrap.cc.jinja", "gen_repo/libxc/register.h:REGISTER_MAPLE", "gen_repo/libxc/libxc.cc:get_maple_name"]}
{"id": "C36", "title": "Exactly which functionals have the exact identities", "statement": "Of the 261 formulas, 17 violate closed-shell agreement, 3 the spin-flip symmetry, 30 of 124 exchange formulas the coordinate scaling by g, 2 of 31 kinetic formulas the scaling by g^2, and 13 of these 155 the spin scaling: each has an admissible point at which both sides have values and the values differ, whatever the special functions return within their known bounds. Every other formula has the identity at all points and for all parameters at which both sides have values. Left out are three functionals that raise NameError on every call (one from the second and the last count, two from the third). The same lists are exact for the returned functions: each exception has a record, a density and orbitals in three dimensions at which the calls return numbers that break the identity.", "quantifier": "all 261 shipped formulas; all inputs with the physical signs, all parameters, all thresholds; every reading of the special functions", "why_tests_cant": "a complete list of exceptions needs a proof for each functional not on it; for several on it the two values agree to many digits", "anchors": ["gen_repo/impl/prebuilt/pol/*.py", "gen_repo/impl/prebuilt/unpol/*.py"]}
{"id": "C37", "title": "Kinetic energies are not negative", "statement": "A kinetic functional returns a number that is not negative, in both spin modes.", "quantifier": "every shipped kinetic functional; all densities, gradients, Laplacians and taus with the physical signs, all thresholds, all parameter values of the signs the functional is meant for", "why_tests_cant": "a sign over a continuum of inputs and parameters", "anchors": ["gen_repo/impl/prebuilt/pol/*_k_*.py", "gen_repo/impl/prebuilt/unpol/*_k_*.py"]}
{"id": "C38", "title": "Exchange energies obey the Lieb-Oxford bound", "statement": "The exchange energy per particle a functional built to satisfy the local Lieb-Oxford bound returns is at least -1.679 n^(1/3), n being the total density, in both spin modes.", "quantifier": "every shipped three-dimensional exchange functional; all densities and gradients with the physical signs (in the polarized mode: neither relative spin density clipped), all thresholds with the density threshold below 1/2, all parameter values of the size the bound needs (kappa at most 0.804)", "why_tests_cant": "an inequality over a continuum of densities, gradients and parameters, tight at infinite reduced gradient and full polarization", "anchors": ["gen_repo/impl/prebuilt/pol/gga_x_*.py", "gen_repo/impl/prebuilt/unpol/gga_x_*.py", "gen_repo/impl/prebuilt/pol/lda_x.py"]}
{"id": "C39", "title": "Energy densities are differentiable in the density", "statement": "The energy density is a differentiable function of the density and the orbitals: along every path along which these and their derivatives move differentiably, the returned number is defined near the point and differentiable there, so that jax.grad has a derivative to compute.", "quantifier": "every functional and mixture, at every point where no density is at a threshold and no root, absolute value or comparison in a formula sits at its kink; and for the listed functionals every physical point off the thresholds; all parameters of the sign the formula needs, all differentiable meanings of the special functions", "why_tests_cant": "the only test of gradients evaluates one functional at two points; a kink or a jump is a set of measure zero that sampling never meets", "anchors": ["tests/test_grad.py:16-29", "gen_repo/impl/utils.py:42-47", "gen_repo/python_template.jinja", "gen_repo/impl/prebuilt/pol/*.py", "gen_repo/impl/prebuilt/unpol/*.py"]}
{"id": "C40", "title": "The repository rule lays out a complete package", "statement": "From an archive with the parts of a libxc release the repository rule succeeds and yields a tree in which every file of the package is linked where the build files expect it, the C sources are those of the archive except the five stand-alone programs, formulas, Python interface and version header are moved and the interface is patched for the system, everything else is untouched, and the two generated build files wrap exactly the C files and build every formula module present in that tree; every label is resolved before the download; the rule fails when a part is missing.", "quantifier": "all archives (file trees) with these parts and free target names, all system names, both settings of GITHUB_ACTIONS, all effects of the patches", "why_tests_cant": "the rule runs once, on one pinned archive; the return codes of mkdir and mv are never looked at, and a missing label only costs a restart", "anchors": ["gen_repo/gen_repo.bzl:9-108", "gen_repo/libxc/gen_build.py:main", "gen_repo/impl/gen_build.py:main"]}
{"id": "C41", "title": "The wheel carries the tags of the interpreter", "statement": "The generated abi.bzl returns the Python tag cp<major><minor> and the ABI tag with the interpreter's flags (the Python tag itself where the interpreter has none) of the interpreter named by PYTHON_BIN_PATH or found on the path; no file is written for another implementation or without an interpreter.", "quantifier": "all interpreters, versions and flags, all environments", "why_tests_cant": "a test run sees the one interpreter it runs under", "anchors": ["gen_repo/python.bzl:6-74", "gen_repo/wheel.BUILD"]}
{"id": "C42", "title": "Names lead to the right objects in the installed package", "statement": "In the installed package getattr(impl, name) returns the module generated from the formula of that name, every public constructor is found under its name in jax_xc, no constructor replaces a helper the generated code relies on, and jax_xc.experimental is the experimental interface.", "quantifier": "all listings of formulas and all lists of functionals whose names start with a family (lda, gga, mgga, also after hyb_)", "why_tests_cant": "the namespaces are filled at import from whatever files are installed; a collision shows up only for the name that collides", "anchors": ["gen_repo/impl/__init__.py:7-17", "gen_repo/__init__.py:7-10", "gen_repo/python_template.jinja:1-24", "gen_repo/impl/build.jinja"]}
{"id": "C43", "title": "Correlation energies are not positive", "statement": "The callable of a correlation functional returns a number that is not positive.", "quantifier": "all densities, gradients, Laplacians and orbitals with positive densities (and positive kinetic energy densities for a meta-GGA), all parameters in the stated ranges, all thresholds", "why_tests_cant": "the sign has to hold at every density and gradient; for several functionals it fails only at thin or steep densities that sampled tests miss", "anchors": ["gen_repo/impl/python_template.jinja:27-36", "gen_repo/python_template.jinja:9-22", "gen_repo/impl/prebuilt/pol/*_c_*.py", "gen_repo/impl/prebuilt/unpol/*_c_*.py"]}
{"id": "C44", "title": "Functions and operators of a formula mean what they say", "statement": "A line of a kernel that applies an elementary function, an arithmetic operator, a comparison or a conditional gives its result the value analysis assigns (the non-negative number whose square is the operand, the number whose exponential is the operand, the real cube root, ...) and no value exactly where there is none; the translation turns the names Maple writes into names with the same meaning.", "quantifier": "all real operands; the names Maple writes and those of the generated module; the special functions (erf, Lambert W, Bessel, ...) are arbitrary", "why_tests_cant": "all operands, including negative ones, zero and the ends of the domains, and the result is pinned down by an equation, not by sampled values", "anchors": ["gen_repo/impl/gen_py.py:20-50", "gen_repo/impl/utils.py:22-47", "gen_repo/impl/python_template.jinja:3-10"]}
{"id": "C45", "title": "Formulas are read with Python's grammar", "statement": "The text of a kernel is cut from left to right into the longest pieces that are tokens (numbers with the value they write, words, operators), blanks apart, and read as the statements whose expressions are the syntax trees of its lines under the grammar of Python (comparison below sums, sums and products grouping to the left, the sign above products, powers to the right and before the sign of their base, calls with the number of arguments their callee takes); a text that is not such a sequence of lines is not read; no text has two cuts and no phrase two trees.", "quantifier": "all vocabularies, all texts of any number of lines of any length, all token sequences", "why_tests_cant": "all nestings of any depth and all orders of operators; uniqueness of the tree is a statement about every other tree", "anchors": ["gen_repo/impl/gen_py.py:20-50", "gen_repo/impl/python_template.jinja:3-10"]}
