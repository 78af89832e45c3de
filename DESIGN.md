# Formal model of PreliZ in Rocq (Coq 8.16.1)

This file is the plan and the trusted base of the development in `rocq/`.
`properties.jsonl` lists the properties (C01, C02, ...); `MANIFEST.json` links each to theorems.

## 1. Layout

Every area of the code has four small files in `rocq/theories/`:

| suffix | content |
|--------|---------|
| `XModel.v` | the code of `/repo`, function by function, with file and line citations. No proofs. |
| `XSpec.v`  | vocabulary of the properties, written without looking at the model's helpers. |
| `XProofs.v`| lemmas. |
| `XProps.v` | the property theorems, their non-vacuity `Example`s and `Print Assumptions`. |

`Base.v` holds what all areas share: results with exceptions, extended reals, list facts.

## 2. Modelling decisions

* Python functions are total Gallina functions. An exception is a value (`Err e`), never a default.
* Numbers. Formulas are over the exact reals `R` of the standard library, or over `xr`
  (finite real, +inf, -inf, nan) where infinities and nan are observable. Floating-point rounding is
  modelled in a separate layer, `FloatModel.v`, `FloatConvModel.v` and `FloatGridModel.v` (C88, C89, C91), with Flocq's rounding functions over `R`; elsewhere it is not. Discrete decisions are over `Z`, `nat`, `string` and `list`, so examples compute.
* External code (pytensor_distributions' pdf/cdf/ppf, scipy optimisers and root finders, KDTree,
  random generators, matplotlib, ArviZ) is an explicit argument of the model functions. What a theorem needs from
  it appears as a hypothesis of that theorem (e.g. "cdf is non-decreasing"), never as an axiom.
* Objects are records; methods are functions from state to state. A history is a list of operations
  folded over the state; invariants are proved by induction on it.
* Where the code violates a property users would expect, the model follows the code and the violation is a
  theorem with suffix `_refuted`, giving a concrete witness (section 5).

## 3. Plan per property

| id | modelled | proof |
|----|----------|-------|
| C01-C03 | `RcParams`, validators, `rc_context` as a state machine over a finite map | induction over op lists and block trees |
| C04-C05 | `read_rcfile` line loop over strings; path search over an environment record | induction over lines; case analysis |
| C06-C09 | `_parametrization` / `_update` of every family with alternatives, over `option xr` arguments | case analysis on given/omitted arguments, field arithmetic |
| C10 | update state machine of the parameter-dependent supports | induction over update lists |
| C11 | `_fit_moments` of each family composed with the textbook mean and variance | field/sqrt arithmetic over R |
| C12-C14 | `Truncated` cdf, ppf, logpdf, rvs over an abstract base | order reasoning, Galois connection, derivative |
| C15-C16 | `Censored` methods over an abstract base; moments over finite supports | finite sums |
| C17 | `Hurdle` methods | finite sums and order reasoning |
| C18-C19 | `Mixture` over a list of components; `combine` | induction over lists |
| C20-C21 | base-class `sf`, `isf`, `logcdf`, `eti` | Galois connection |
| C22 | `discrete_hdi` with any tie-breaking permutation | greedy exchange argument by induction |
| C23 | `moments` | induction over the string |
| C24-C25 | `_finite_endpoints`, `xvals`, `_check_endpoints` | integer arithmetic, case analysis |
| C26-C27 | `get_fixed_params`, `get_params`, selection loop of `optimize_max_ent` | induction over lists |
| C28-C29 | `Loss`, fit loops, `get_penalization` | induction, rational arithmetic |
| C30 | `find_discrete_mode`, `_ppf_single`, `find_ppf` | induction, archimedean argument for termination |
| C31 | `optimize_dirichlet_mode`, `dirichlet_mode` | loop invariant, any number of iterations |
| C32-C34 | argument checking of `maxent`, `quartile`, `match_moments`, `match_quantiles` | case analysis on a state machine |
| C35-C37 | `combine_roulette`, the roulette grid and its pdf | induction over click lists and columns |
| C38 | `pytensor_jit`, `pytensor_rng_jit` caches | simulation by induction over call lists |
| C39 | `process_extra` | string induction, print/parse round trip |
| C40-C41 | `unravel_projection`, `write_pymc_string` | induction over variable lists |
| C42 | `FilterDistribution` as a state machine, KDTree answers arbitrary | induction over interactions |
| C43-C45 | special functions, `xy2bc`, `_warp_interval` | real analysis |
| C46 | Dirichlet and MvNormal parametrization | finite sums, case analysis |
| C47 | residual functions | real arithmetic |
| C48 | `Mixture.ppf` and the numeric quantile search of a mixture | bisection invariant |
| C49 | `match_quantiles`, `match_moments` argument handling | case analysis |
| C50 | `find_hdi_contours` | prefix sums of a sorted list |
| C51-C52 | closed-form `_fit_mle` methods, textbook densities as specification | tangent of ln, median by counting, real arithmetic |
| C53 | `params_support` of every family and parametrization, `init_vals`, `optimize_ml`, starts of `optimize_mean_sigma`; scipy's optimiser is a parameter that honours bounds | case analysis over families with real arithmetic; the exceptions are part of an iff |
| C54 | `catalog.get`, `catalog.find`, the groups; an uninitialised instance is the one `construct` gives without arguments | induction over the candidate list, case analysis over families |
| C55 | `params_dict`, `info`, `_format_support_value` | invariant over construction and update of every family |
| C56 | every evaluation method of every family, as a table extracted by `tools/gen_eval.py` and interpreted in `EvalModel.v`; the library is a parameter | computation over the table, invariant over histories |
| C57 | `back_fitting_idata`, `extract_preliz_distributions`, `set_families`, `back_fitting_pymc` over a heap of mutable distribution objects; fitting is a parameter | frame lemmas and induction over the variables |
| C58 | `ppe` with `compile_mllk` as a state machine over rvs_to_values with every step fallible; `optimize_pymc_model`, `get_weighted_rvs`, `disable_pymc_sampling_logs` | induction over iterations, case analysis over crash points |
| C59 | from_pymc, from_prior, _reparametrize, _nan_to_none on symbolic PyMC nodes (printed name and inputs); to_pymc, to_bambi as calls of a class with keywords. How PyMC lays out inputs is a separate specification (PymcSpec). Single numbers only; Categorical, Dirichlet, MvNormal left out | case analysis over families with the algebra of the reparametrisations; round trip through C08 and C55. Refuted: a known parameter is lost when the other one of a mixed input is open; truncated HalfNormal; hurdle over a truncated base; nested modifiers inside a model; to_bambi of modifiers and mixtures, and reading it back |
| C60 | HdiModel.v: find_hdi, continuous_hdi, hdi and summary with the minimiser and the sort as parameters; HdiSpec.v: allowed points, minimisers that improve, densities with one mode | the start of the search is an allowed point; calculus (mean value theorem) for the highest density; telescoping sums and C22 for tables; counterexamples for censored distributions and for unreachable masses |
| C61 | StatModel: the grid sums and the trapezoid rule behind the statistics of the modified distributions; StatSpec: moments and entropy from a distribution function | sums over the grid are expectations of the tabulated law, telescoping for entropies, mean value theorem for the trapezoid error; counterexamples with dice and uniforms |
| C62 | ReModel is a backtracking matcher for the patterns of Python's `re` that are used (classes, literals, greedy and lazy repetition, groups, `\b`, `$`); SourceModel writes the patterns of agnostic.py and bambi_io.py in it and models from_preliz, dict_model, parse_arguments, get_textboxes, get_prior_pp_samples and select_prior_samples; SourceSpec describes programs as lines and arguments, without patterns | general lemmas on greedy and lazy runs, a declarative reading relation (`lang`) implied by every match, induction on lines, arguments and runs; searching for parameters is proved to find the first word of the text among the parameters |
| C63 | `ExploreModel.v`: the callback of the explorer as a function of the draws, the widget values and the dictionary `stats_kwargs` that survives between redraws; the calls made on the axes are recorded; matplotlib's refusal of unknown line properties and of a wrong number of colours is modelled. | Invariants over sessions by induction on the events. Refuted: line plots after a histogram, histograms after a line plot, stale integer bins, NaN draws in a histogram, scalar priors in a histogram, the default variable of the prior group. |
| C64 | DrawModel: the check on parameters, broadcasting of one-dimensional arrays, the loop of plot_pdf on a store in which modifiers share their base, the keyword dictionary and mle's drawing. DrawSpec says what combinations are. | Induction over the combinations; the store after the loop; refutations for the shared base, the popped line style, numpy scalars and plot_kwargs. |
| C65 | PointModel: the points and the lines drawn, with the distribution or sample as a record of functions. | Case analysis on the kind and the levels; set of points covered by the lines for circular intervals; refutation for intervals of one value. |
| C66 | SliderModel: generate_range with round as a parameter, get_slider for ints and floats, the loop over parameters, the choice of starting values. | Real analysis of the order of magnitude (floor of the logarithm); induction over the parameters; refutations for zero, infinite and integer values and for Hurdle. |
| C67 | CategModel: _parametrization and _update on vectors, the callback of the sliders. | Equations; the sums of the probabilities; refutations for logit_p and for moving one slider. |
| C68 | WidgetModel: QuartileInt as a state machine over widget events with the fit as a parameter, and get_distributions over the catalog. | Invariant over histories; induction over the names; refutation for the text box, which does not refit. |
| C69 | WidgetModel: Roulette's controls as a state machine on top of the grid of RouletteModel, with the fit as a parameter. | Invariants over histories; refutations for resizing, an empty selection, None, dimensions outside the boxes and equal limits. |
| C70 | PriorModel: select, back_fitting_ppa with both lists, and the callback of the button; fits and sorting are parameters. | Induction over the priors; best_fit of BackSpec for the new families; refutation for families without an automatic fit. |
| C71 | ShowModel: names, descriptions, the text and HTML forms as lists of characters, strip, and the catalog; number formatting is a parameter. | Injectivity by cutting at the marks, induction over the parameters; round trip through TextModel's process_extra and PplModel's name_params; refutations for Hurdle without psi, nested modifiers and TruncatedNormal. |
| C72 | PlotModel: Python's binding of keywords with the signatures of plot and of the ten methods, the dispatch of plot, and the loop over marginals with the calls it makes. | Dictionary lemmas and case analysis on the kind; induction over the panels; refutations for matplotlib keywords, defaults, given axes with a title, one dimension and shared limits. |
| C73 | SampleModel: _fit_mle of the 44 families, optimize_ml with its objective, optimize_mean_sigma with scipy's checks, one pass of fit_to_sample and the loop over rows; optimisers, densities and moments are parameters. | The search is the same on instances that look alike; bounds admit every documented vector with room (C53), so the best within the bounds is the best; dictionary induction for rows; refutations for refits, skewed samples, stale supports and counts. |
| C74 | WarnModel: the tests that guard each warning and what is printed in it, with types of Python numbers; the fitted distribution is its cdf, moments or quantiles. | Arithmetic on extended reals; induction on the lines of the message; mle through the fits of SampleModel; refutations for quartile (only the mass between), numpy integers, nan, zero and infinite targets, repeated letters and defined candidates. |
| C75 | LoopModel: both loops over the candidates as effects on the instances (the objects of ApiModel), with the parameters fixed by the user. | The loop is a fold whose result is the first minimiser; the fixed parameters are traced through `_parametrization`, the moment fit and every step of the optimiser; refutations for BetaScaled. |
| C76 | the shapes drawn by the five plots and by the panel of the widgets, as lists of points, with the grid of C24. Colours, ticks, limits and labels are left out (labels are C55). | the grid of whole numbers is consecutive, so the last point at or before t is the whole part of t; pigeonhole on the 200 sampled points for the finding; min and max of a list by induction. |
| C77 | the panels completed and the exception that ends the call, with the shapes of C76, the grids and levels of the joint plots with C44, the instances behind the sliders with C46. Colours, labels and the layout of the figure are left out. | induction on the list of marginals; the ceiling of a quotient for the grid; uniqueness of sorting for the finding on levels. |
| C78 | the graph of a PyMC model as a tree of constants and named nodes with inputs, the walk over ancestors, the entries made for the variables, the code of C40 written from them. Evaluating the graph, the names PyMC gives to transforms and the fits are parameters. | induction on the graph; the filter that keeps free variables is shown to be dependency; the writing loop by induction on the variables with children. |
| C79 | the text and constructor of the mapping of C06, and splitting a text in the lines a file yields. str and float of a Python float are parameters that are assumed to be inverse for the value held. | the state is one of three keys in order, so that the text is explicit; induction on the text for the lines; the parser of C06 on each. |
| C80 | rvs as a function of the list of uniforms (Truncated, Hurdle), of the samples of the base (Censored) or of the samples of the components and the components chosen (Mixture). The generators are parameters. | from the laws of C12, C13 and C17 pointwise, then induction on the samples. |
| C81 | the three patterns run by the matcher of ReModel on any text, the order of a set as a parameter, the shipped file as data. Encodings and opening files are left out. | what a lazy run reads up to the first end; induction on the entries, with the tail of an entry free of the character that starts one; no overlap of two citations. |
| C82 | the axes with what they show, the figure, the panel of the accepted samples and the widgets, as a state machine over the sessions of C42; matplotlib's drawing and limits are a parameter. | an invariant over all sequences of actions; the room in the figure by counting the samples left after the first batch. |
| C83 | pyplot's figures and axes as a state with title, labels of curves and legend box; the functions that choose the axes and write the text; the notice as a function of shell and backend. How a number is written and what str(dist) gives are parameters. | induction over the sequence of plots; the text by induction over the letters. |
| C84 | the boxes as records (name, shown limits, kind, value), the dictionary of all widgets, what an event does to them, and the limits, kind of plot and arguments that the callback takes from them; the reading of the source is that of C62. | induction over the parameters and over the events; the starting values by cases on the families. |
| C85 | the sessions of C69 composed with the pooling of C35: the attribute `inputs` after a release is the tuple handed to combine_roulette. | invariant of the sessions (no negative heights), then every linear statistic of the pooled histogram as a sum over experts and columns. |
| C86 | if_pymc_get_preliz and its five callers on a heap of objects; the conversions (C59) and the fits (C32-C34, C53) are parameters. | the state after the arguments are prepared as a function of what they mean, by induction over the arguments with the invariant that references in hand are distinct; frame conditions for every other reference. |
| C87 | constructors, reparametrization, moment fit and starting values of the modifiers over any wrapped object, plugged into the model of maxent, quartile and matching of C32; mixtures likewise. | what an elicitation leaves, by following the dictionary of fixed and free values through the wrapped object; that the univariate families meet the assumptions on wrapped objects; computation for the refutations. |
| C88 | the formulas above with Flocq's rounding to nearest even in the format FLT(-1074, 53); sums as trees, for numpy's unspecified order of addition. | monotonicity of rounding, exactness of representable results, relative error bounds by induction on the tree of additions; computation of particular roundings for the exceptions. |
| C89 | the conversion formulas with Flocq's rounding to nearest even; squares and roots correctly rounded. | a calculus of relative errors (products, quotients, sums, roots, one rounding) applied along each conversion; computation of particular roundings for the exceptions. |
| C90 | the methods on explicit arrays with a type (integers or floats): np.asarray, np.where, masks, np.zeros_like, storing in an array of integers; the object's bound as a number or as an array that is changed in place. | induction on the entries; induction on the number of evaluations. |
| C91 | np.linspace, np.trapezoid, np.sum in any order and the variance of a mixture with Flocq's rounding to nearest even. | relative errors of the step and the offsets (the calculus of C89), monotonicity of rounding; a relative bound summed over any tree of additions for the integrals; computation of particular roundings for the exceptions. |
| C92 | rvs of trees of distributions on arrays (shape and values), the generator and the session as states; the samplers of numpy and of the families are given. | structural induction over distributions; simulation by induction over histories of calls. |

## 4. Trusted base

* The kernel of Coq 8.16.1 and its standard library. No axioms are added; no kernel check is switched off; nothing is admitted.
* The axioms that `Print Assumptions` reports, listed below for every theorem. All of them belong to the standard library
  (the construction of the classical real numbers and functional extensionality).
* The fidelity of the model to the code, which is by reading: every definition cites its lines, and `seeded/LOG.jsonl`
  records how the theorems react to wrong versions of it.
* Generated text: `EvalTable.v` is extracted from the sources by `tools/gen_eval.py`. The tool is not trusted for proofs, only
  for the claim that the table says what the classes say.
* External code. pytensor_distributions, scipy, PyMC, ArviZ, KDTree, numpy's random generators and matplotlib are arguments
  of the model; what a theorem needs of them is a hypothesis in its statement.
* Rounding. Outside of `FloatModel.v` reals are exact, so nothing is said about accuracy in floating point, except where a
  constant of the code (eps) is part of a formula. `FloatModel.v` trusts Flocq's definition of rounding to nearest even in
  the format of doubles as a description of the machine's operations; overflow is out of its scope (all its values are
  far from it). Flocq is proved over the standard library's reals and brings no axioms of its own.

### 4.1 Axioms per theorem

<!-- assumptions -->
* **A0**: closed under the global context (no axioms) - 201 theorems
* **A1**: `ClassicalDedekindReals.sig_forall_dec` - 7 theorems
* **A2**: `ClassicalDedekindReals.sig_forall_dec`, `FunctionalExtensionality.functional_extensionality_dep` - 236 theorems
* **A3**: `ClassicalDedekindReals.sig_forall_dec`, `ClassicalDedekindReals.sig_not_dec`, `FunctionalExtensionality.functional_extensionality_dep` - 79 theorems
* **A4**: `ClassicalDedekindReals.sig_forall_dec`, `ClassicalDedekindReals.sig_not_dec`, `Classical_Prop.classic`, `FunctionalExtensionality.functional_extensionality_dep` - 304 theorems

| claim | theorems (axiom group) |
|---|---|
| C01 | `settings_always_sound` (A0), `iteration_sorted` (A0), `find_all` (A0), `nan_probability_refuted` (A0), `one_is_stored_as_false_refuted` (A0) |
| C02 | `rejected_assignment_changes_nothing` (A0), `unknown_key` (A0), `accepted_assignment` (A0), `valid_values_are_stored_unchanged` (A0), `show_plot` (A0), `ci_prob` (A0), `ci_kind` (A0), `no_deletion` (A0), `interrupted_update` (A0) |
| C03 | `context_restores` (A0), `scoped_programs_leave_no_trace` (A0), `failed_entry_leaks_refuted` (A0) |
| C04 | `file_settings` (A0), `line_order_irrelevant` (A0), `line_without_colon_fails` (A0), `repeated_key_fails` (A0), `warnings_fail_refuted` (A0) |
| C05 | `first_existing_file` (A0), `none_iff_no_file` (A0), `documented_order` (A0) |
| C06 | `mixed_sets_rejected` (A4), `single_set_never_raises` (A4) |
| C07 | `frozen_iff_complete` (A4), `kumaraswamy` (A4), `kumaraswamy_zero_refuted` (A4), `zinb` (A4), `zinb_without_psi_refuted` (A4), `given_are_reported` (A4), `wald_phi_dropped_refuted` (A4) |
| C08 | `reads_back` (A4), `precision_bias` (A2), `exact` (A2) |
| C09 | `alternative_agrees` (A4), `round_trip_bias` (A3), `exact` (A3) |
| C10 | `support_tracks` (A4), `fixed_support` (A4), `last_update_decides` (A4), `parametrization_kept` (A4), `bounds_kept` (A4), `hypergeometric` (A4), `hypergeometric_fraction_refuted` (A4) |
| C11 | `mean_and_sd` (A4), `mean` (A4), `halfnormal_sd` (A4), `studentt` (A4), `halfstudentt` (A4), `halfstudentt_overflow` (A4), `logitnormal` (A4), `uniform` (A4), `discreteuniform` (A4), `weibull_mean` (A4), `studentt_default_nu_refuted` (A4), `beta_clamp_refuted` (A4), `exgaussian_mean_refuted` (A4), `asymmetric_laplace_documented_refuted` (A4), `modifier_forgets_its_parameters` (A2), `truncated_bounds_lost_refuted` (A4), `modifier_defined` (A2), `rice` (A3), `rice_rayleigh_refuted` (A4), `weibull_exponential` (A4), `weibull_valid` (A4), `weibull_negative_refuted` (A4) |
| C12 | `truncated_is_conditional` (A4), `cdf_shape` (A4), `pmf_sums_to_cdf` (A4), `pmf_sums_to_one` (A4), `nothing_outside` (A4), `pdf_is_derivative` (A4), `fractional_bound_refuted` (A4) |
| C13 | `ppf_inverts` (A4), `ppf_exact` (A4), `ppf_nan` (A4), `rvs_within` (A4), `zero_refuted` (A4) |
| C14 | `unbounded` (A4), `nested` (A4), `order_irrelevant` (A4) |
| C15 | `cdf` (A4), `cdf_at_upper_bound_refuted` (A4), `cdf_monotone` (A4), `pmf` (A4), `pmf_sums_to_one` (A4), `equal_bounds_refuted` (A4), `density` (A4), `ppf` (A4), `rvs` (A2), `median` (A4) |
| C16 | `mean_and_variance` (A4), `unbounded` (A4), `skewness_refuted` (A4), `any_distribution` (A4) |
| C17 | `law_is_a_distribution` (A4), `cdf_discrete` (A4), `cdf_continuous` (A4), `cdf_negative_refuted` (A4), `cdf_gap_refuted` (A4), `pmf` (A4), `pmf_sums_to_cdf` (A4), `pmf_sums_to_one` (A4), `pmf_reaches_one` (A4), `pdf_is_derivative` (A4), `logpdf` (A4), `ppf_inverts` (A4), `ppf_nan` (A4), `rvs` (A4), `mean_and_variance` (A4), `frozen_without_psi_refuted` (A1) |
| C18 | `any_distribution` (A4), `weights_and_support` (A4), `empty_rejected` (A0), `without_weights` (A4), `mixed_kinds_rejected` (A2), `cdf` (A4), `pmf` (A4), `pmf_sums` (A4), `pdf_is_derivative` (A4), `logpdf` (A4), `mean_and_variance` (A4), `moments_of_the_law` (A4), `order_irrelevant` (A4), `split_component` (A4), `weight_scale` (A4), `unfrozen_weights_not_normalised_refuted` (A4) |
| C19 | `mixture_sizes` (A0), `mixture_grouped_refuted` (A0), `mixture_size_zero_refuted` (A0), `combine_sizes` (A2), `combine_size_not_exact_refuted` (A2) |
| C20 | `survival` (A4), `survival_decreases` (A4), `isf_inverts` (A4), `isf_exact` (A4) |
| C21 | `covers` (A4), `nested` (A4), `default` (A2), `format_irrelevant_for_discrete` (A2), `rejected` (A2), `mass_checked_refuted` (A4), `default_format_refuted` (A4) |
| C22 | `covers_with_fewest_points` (A2), `too_little_mass` (A2), `unimodal_shortest` (A2) |
| C23 | `moments_in_order` (A0), `other_letters_rejected` (A0), `names_unambiguous` (A0), `lmoments_in_order` (A0), `lmoments_other_letters_rejected` (A0) |
| C24 | `continuous_grid` (A2), `discrete_grid` (A2), `sampled_grid` (A2), `inside_when_sampled_refuted` (A2), `endpoints` (A4), `unknown_support_rejected` (A2) |
| C25 | `check_endpoints` (A2), `check_endpoints_silent` (A2) |
| C26 | `family_keeps_fixed` (A4), `bounds_stay` (A4), `params_cover_names` (A4), `fixed_and_free` (A0), `short_vector_raises` (A0), `whole_optimisation` (A0) |
| C27 | `best_feasible` (A2), `none_feasible` (A2), `nothing_completed` (A2), `failed_start_hides_others_refuted` (A2), `mass_reached` (A2), `fixed_stat_refuted` (A2), `starting_points` (A2) |
| C28 | `fit_to_sample` (A2), `fit_to_epdf` (A2), `fit_to_quartile` (A2), `mle_order` (A2) |
| C29 | `is_aicc` (A2), `enough_data` (A2), `too_few_data_refuted` (A2) |
| C30 | `quantile_exists` (A2), `discrete_quantile` (A2), `quantile_on_a_step` (A2), `returns_the_quantile_refuted` (A4), `discrete_mode` (A2), `empty_grid` (A0) |
| C31 | `every_iteration` (A2), `returned_mode` (A2), `reported_mode` (A2), `validation` (A2), `large_bound_diverges_refuted` (A2) |
| C32 | `rejects` (A2), `accepts` (A2), `frozen_raises` (A2), `second_call_raises` (A2), `keeps_fixed` (A2), `families_behave` (A4), `fixed_params_persist_refuted` (A4), `mode_accepted` (A4), `partial_assignment` (A4), `unknown_keyword` (A4), `betascaled_fixed_ignored_refuted` (A4), `nan_endpoint_refuted` (A2), `missing_mode_freezes_refuted` (A2) |
| C33 | `rejects` (A2), `nan_rejected` (A2), `keeps_fixed` (A2) |
| C34 | `distribution_source` (A0), `array_source` (A3), `array_kurtosis_refuted` (A3), `array_order_refuted` (A2), `any_finite_refuted` (A1), `some_target_finite` (A0) |
| C35 | `pooled_is_weighted_mixture` (A3), `pooled_moments` (A3), `weight_scale_invariant` (A3), `default_weights_equal` (A3), `different_grids_rejected` (A3), `negative_weight_rejected` (A3), `short_weights_drop_experts_refuted` (A3) |
| C36 | `picture_agrees` (A0), `heights_bounded` (A0), `heights_nonnegative` (A0), `click_effect` (A0), `outside_clicks_ignored` (A0), `negative_chips_refuted` (A0) |
| C37 | `elicited_pdf` (A3), `no_chips` (A3), `x_values_are_shifted_refuted` (A3), `negative_probability_refuted` (A3), `limits_differ` (A2) |
| C38 | `transparent` (A0), `signature_exact` (A0), `rng_transparent` (A0), `key_error_runs_twice_refuted` (A0) |
| C39 | `reads_back` (A0), `sound` (A0) |
| C40 | `blocks` (A0), `transformed` (A0) |
| C41 | `one_line_each` (A0), `bambi_lines` (A0), `unwritable` (A0), `flat_model` (A0), `interleaved_refuted` (A0), `bambi_unbalanced_refuted` (A0) |
| C42 | `never_shown_twice` (A2), `titles` (A2), `accepted` (A2), `exhaustion` (A2), `answers` (A2), `fresh_batch` (A2), `few_samples_refuted` (A2), `empty_axis_refuted` (A0), `target_refuted` (A2), `clicks` (A0) |
| C43 | `expit` (A4), `logit` (A4), `ends` (A4), `monotone` (A4), `symmetric` (A4), `xlogx` (A4), `xprody` (A2), `mean_and_std` (A3), `equivariant` (A3) |
| C44 | `sum_to_one` (A3), `to_cartesian` (A3), `to_barycentric` (A3), `exact` (A3), `within` (A3), `clipped_sum` (A3), `clipped_sum_refuted` (A3), `density` (A4), `grid` (A0) |
| C45 | `wrapped` (A4), `eti` (A4), `formatted` (A4), `exception_refuted` (A1), `format_refuted` (A4) |
| C46 | `both_rejected` (A0), `from_cov` (A0), `from_tau` (A0), `same_distribution` (A0), `frozen_iff` (A0), `singular_refuted` (A0), `variance` (A3), `mean_refuted` (A0), `rejected_variance_refuted` (A3), `unset` (A3), `stale_refuted` (A0), `dirichlet_mode` (A2), `mode_is_maximal` (A4), `marginal_means` (A2), `dirichlet_stale_refuted` (A2), `no_fit_refuted` (A2) |
| C47 | `quartile` (A2), `quantiles` (A2), `densities` (A2), `moments` (A2), `mean_sigma` (A2), `relative_error` (A2), `units_quartile` (A2), `units_quantiles` (A2), `units_mean_sigma` (A2), `units_same_choice` (A2), `moments_units_refuted` (A3) |
| C48 | `bracket_found` (A2), `find_ppf` (A2), `find_ppf_ends` (A2), `discrete_exact_root_refuted` (A4) |
| C49 | `source_checked` (A0), `keeps_fixed` (A0), `quantiles_checked` (A2), `nan_quantile_refuted` (A0) |
| C50 | `contours` (A2) |
| C51 | `normal` (A4), `lognormal` (A4), `logitnormal` (A4), `constant_refuted` (A3), `halfnormal` (A4), `exponential` (A4), `poisson` (A4), `geometric` (A4), `uniform` (A2), `discrete_uniform` (A2), `laplace` (A4), `empty` (A4) |
| C52 | `triangular` (A2), `triangular_refuted` (A2), `binomial` (A4), `binomial_refuted` (A4), `exgaussian` (A4), `exgaussian_refuted` (A4), `vonmises` (A3) |
| C53 | `search_stays_valid` (A3), `hypergeometric_fixed` (A3), `nothing_cut_off` (A3), `logit_refuted` (A3), `one_bound_each` (A4), `default_names` (A2), `default_start_inside` (A4), `ml_installs` (A4), `ml_valid` (A4), `ml_alternative_refuted` (A4), `vonmises_guess_refuted` (A4), `binomial_guess` (A4) |
| C54 | `info` (A4), `info_kinds` (A4), `info_names` (A4), `info_refuted` (A4), `info_categorical_refuted` (A4), `find` (A4), `unknown_filter_refuted` (A4), `bounded_missed_refuted` (A4), `get` (A0), `misnamed_refuted` (A0), `documented` (A0), `category_supports` (A4), `category_support_refuted` (A4) |
| C55 | `params_dict` (A4), `info` (A4), `parametrizations` (A0), `parametrizations_refuted` (A0), `format` (A2), `format_refuted` (A4) |
| C56 | `same_law` (A4), `rvs` (A0), `zero_inflated_pdf` (A4), `law_complete` (A0), `methods` (A0), `inherited` (A4), `canonical_decides` (A4) |
| C57 | `posterior_to_prior` (A2), `shared_alternative_refuted` (A2), `ppe_priors` (A2), `ppe_auto_refuted` (A0), `columns` (A0), `matrix_refuted` (A0), `unusable_candidates` (A0), `unknown_prior` (A0) |
| C58 | `projection` (A0), `random_state_refuted` (A0), `weighted` (A0), `model_restored` (A0), `model_restored_refuted` (A0), `engine_refuted` (A0), `no_observed` (A0), `engine` (A0), `logs` (A0), `logs_refuted` (A0) |
| C59 | `bound_arrays` (A4), `truncated_bound_arrays` (A4), `bound_arrays_refuted` (A4), `from_pymc` (A4), `mixed_inputs_refuted` (A4), `censored` (A4), `truncated` (A4), `truncated_halfnormal_refuted` (A0), `zero_inflated` (A4), `mixture` (A4), `hurdle` (A4), `hurdle_truncated_refuted` (A4), `from_prior` (A4), `from_prior_unknown_name` (A4), `from_prior_bounded` (A4), `from_prior_hurdle` (A4), `to_pymc` (A4), `to_pymc_unknown` (A2), `round_trip` (A4), `to_pymc_bounded` (A2), `to_pymc_mixture` (A2), `to_pymc_context_refuted` (A2), `to_bambi` (A4), `to_bambi_modified` (A0), `to_bambi_base_lost_refuted` (A0), `uniform_bounds_overwritten_refuted` (A4), `from_prior_mixture` (A4), `to_bambi_mixture_refuted` (A0), `bambi_round_trip_refuted` (A4) |
| C60 | `no_wider_than_eti` (A4), `shortest` (A4), `highest_density` (A4), `censored_refuted` (A4), `discrete_covers` (A4), `discrete_many` (A4), `no_solution_refuted` (A4), `hdi_requests` (A2), `summary` (A2), `unknown_interval_refuted` (A2) |
| C61 | `moments` (A3), `truncated` (A4), `mixture` (A4), `hurdle` (A4), `hurdle_variance_refuted` (A4), `sparse_grid_refuted` (A4), `mode` (A2), `median` (A4), `entropy` (A4), `entropy_nan_refuted` (A4), `censored_entropy` (A4), `censored_entropy_refuted` (A4), `censored_kurtosis_refuted` (A4), `censored_moments` (A4), `censored_entropy_continuous` (A4), `censored_entropy_open` (A4), `trapezoid` (A4), `continuous_mean` (A4), `hurdle_continuous_variance_refuted` (A4) |
| C62 | `priors_read` (A0), `beta_refuted` (A0), `modifier_refuted` (A0), `comments` (A0), `return_comment_refuted` (A0), `return_tuple_refuted` (A0), `bambi_refuted` (A0), `boxes` (A3), `unused_parameter_refuted` (A3), `keyword_refuted` (A3), `no_initial_values_refuted` (A3), `nested_commas_refuted` (A3), `nested_calls_refuted` (A3), `limits_positive` (A4), `expit_refuted` (A3), `exp_probability_refuted` (A4), `rows` (A0), `rows_outside` (A0), `box_supports` (A3), `repeated_name_refuted` (A0), `unreturned_prior_refuted` (A0) |
| C63 | `lines_ignore_history` (A2), `float_histograms_ignore_history` (A2), `custom_ignores_history` (A2), `collected` (A0), `ecdf_shows_clean_draws` (A2), `kde_shows_clean_draws` (A2), `ecdf_top_refuted` (A2), `references` (A2), `limits` (A2), `integer_bins` (A2), `line_after_histogram_refuted` (A2), `histogram_after_line_refuted` (A2), `stale_bins_refuted` (A2), `user_style_refuted` (A2), `nan_histogram_refuted` (A2), `prior_histogram_refuted` (A2), `prior_default_refuted` (A2), `stats_kwargs_refuted` (A2), `transparency` (A2), `ticks` (A2) |
| C64 | `combinations` (A0), `incompatible` (A0), `guard` (A0), `scalar_draws_once` (A0), `undefined` (A0), `family_curves` (A0), `modifier_curves` (A0), `drawing_keeps_refuted` (A1), `discrete_style_refuted` (A1), `numpy_scalar_refuted` (A1), `mle_draws` (A0), `mle_plot_kwargs_refuted` (A0) |
| C65 | `two_levels` (A3), `one_level` (A3), `quantiles` (A3), `number_of_levels` (A3), `defaults` (A3), `circular` (A3), `single_value_refuted` (A3), `dot_is_median_refuted` (A3) |
| C66 | `range` (A4), `float_slider` (A4), `integer_slider` (A4), `sliders` (A4), `finite_opens` (A4), `zero_refuted` (A4), `infinite_refuted` (A4), `integer_slider_refuted` (A4), `starts` (A0), `categorical` (A4), `categorical_refuted` (A4), `hurdle_refuted` (A0) |
| C67 | `given_p` (A4), `given_logit_p` (A4), `both` (A0), `history` (A4), `logit_p_refuted` (A4), `sliders_checked` (A4), `sliders` (A4), `one_slider_refuted` (A4), `logit_p_sliders_refuted` (A4), `same_law` (A4), `each_method` (A0), `no_lmoments` (A0), `without_arguments` (A4), `fit_refuted` (A2), `fit_outcome` (A4) |
| C68 | `names` (A0), `all_names_refuted` (A0), `names_refused` (A0), `default_names` (A0), `opens` (A2), `boxes` (A2), `current` (A2), `release` (A2), `some_text` (A2), `failure` (A2), `params_refuted` (A2) |
| C69 | `release` (A3), `boxes` (A3), `own_control` (A3), `lower_limit` (A3), `resize` (A3), `checkboxes` (A3), `none_excludes` (A3), `picture` (A3), `resize_refuted` (A3), `empty_selection_refuted` (A3), `none_sticky_refuted` (A3), `dimensions_refuted` (A3), `upper_limit_refuted` (A3) |
| C70 | `original` (A0), `failure` (A0), `no_draws` (A0), `new_families` (A2), `categorical_refuted` (A0), `ask_for_more` (A0), `button` (A2) |
| C71 | `text` (A0), `modifiers` (A0), `total` (A0), `injective` (A0), `pastes` (A0), `code` (A0), `mixture` (A0), `modifier_name` (A0), `modifier` (A0), `html` (A0), `multivariate` (A0), `catalog` (A0), `hurdle_refuted` (A0), `nested_refuted` (A0), `truncated_normal_refuted` (A0) |
| C72 | `dispatch` (A0), `errors` (A0), `same_as_method` (A0), `given_axes` (A2), `panels` (A2), `interactive` (A2), `limits` (A2), `joint` (A2), `keywords_refuted` (A0), `defaults_refuted` (A0), `axes_title_refuted` (A2), `one_dimension_refuted` (A0), `limits_refuted` (A2) |
| C73 | `all_parameters_estimated` (A4), `maximum_likelihood` (A4), `better_than_moments` (A4), `closed_forms` (A4), `refit_refuted` (A4), `skewed_refuted` (A4), `loss_is_likelihood` (A2), `candidate` (A4), `stale_support_refuted` (A4), `counts_refuted` (A4), `closest_moments` (A4), `vonmises` (A4), `kappa` (A3), `rows` (A2) |
| C74 | `discrete_mass` (A2), `maxent_mass` (A2), `maxent_integers` (A2), `numpy_integers_refuted` (A2), `nan_mass_refuted` (A2), `fractional_bound_refuted` (A2), `quartile` (A2), `quartile_exact` (A2), `quartile_shifted_refuted` (A2), `quartile_discrete_refuted` (A2), `match_lines` (A2), `match_silent` (A2), `match_not_finite` (A2), `match_quantiles_silent` (A2), `zero_target_refuted` (A2), `infinite_target_refuted` (A2), `repeated_letter_refuted` (A2), `mle_warning` (A4), `defined_candidate_refuted` (A4) |
| C75 | `roulette_best` (A2), `quartile_best` (A2), `exception_ends` (A2), `roulette_keeps_fixed` (A4), `quartile_keeps_fixed` (A4), `truncated_keeps_fixed` (A4), `unknown_name` (A4), `roulette_betascaled_ignored_refuted` (A4), `quartile_betascaled_one_bound_refuted` (A4), `quartile_betascaled_shape_ignored_refuted` (A4), `roulette_betascaled_bounds_refuted` (A4), `quartile_betascaled_bounds` (A4), `other_names` (A2) |
| C76 | `discrete_exact` (A4), `sampled_too_low_refuted` (A2), `continuous` (A2), `quantiles` (A2), `mass` (A2), `nan_mass` (A2), `stems` (A2), `censored` (A2), `upper_unmarked_refuted` (A4), `mark_height_refuted` (A4), `panel` (A2) |
| C77 | `panels` (A2), `given_axes_refuted` (A2), `few_axes_refuted` (A2), `one_component_refuted` (A2), `joint` (A2), `dirichlet_ppf_refuted` (A2), `interactive_pdf` (A2), `interactive_cdf` (A2), `mvnormal_ppf` (A2), `ppf_limits_refuted` (A2), `other_kinds` (A2), `joint_grid` (A2), `narrow_normal_refuted` (A3), `levels` (A3), `nothing` (A2), `outcomes` (A3), `concentrated_refuted` (A3), `mvnormal_sliders` (A0), `dirichlet_sliders` (A0), `unset` (A0), `xvals_refuted` (A2), `xvals_pair` (A2), `interactive_joint` (A2) |
| C78 | `variables` (A0), `two_levels` (A0), `three_levels_refuted` (A0) |
| C79 | `written_sequence` (A0), `sequence` (A0), `not_a_sequence` (A0), `written_sequence_refuted` (A0), `text` (A0), `reads_back` (A0), `reading` (A0), `built` (A0) |
| C80 | `share` (A2), `truncated` (A4), `censored` (A2), `hurdle` (A4), `mixture` (A2) |
| C81 | `all` (A0), `cited` (A0), `methods` (A0), `unknown_key` (A0), `default` (A0), `arguments` (A0), `name_refuted` (A0), `shipped` (A0) |
| C82 | `panels` (A2), `ranges` (A2), `choices` (A2), `accepted_panel` (A2), `clicked` (A2), `return_few` (A1), `return_refuted` (A2), `references_refuted` (A2), `nothing_within_refuted` (A2), `only_first_refuted` (A2) |
| C83 | `moments` (A0), `one` (A0), `new_axes` (A0), `history` (A0), `fresh` (A0), `rows` (A0), `raises` (A0), `left_behind_refuted` (A0), `figsize_refuted` (A0), `other_letters_refuted` (A0), `true_refuted` (A0), `notice` (A0), `goes_on_refuted` (A0), `unnamed_refuted` (A0), `terminal_refuted` (A0) |
| C84 | `boxes` (A3), `received` (A2), `redrawn` (A2), `layout` (A2), `session` (A3), `array_refuted` (A3), `unused_refuted` (A3), `integer_default_refuted` (A3), `limits_refuted` (A4) |
| C85 | `chips` (A3), `stacked` (A3), `no_chips` (A3), `equal_weights_refuted` (A3) |
| C86 | `mle` (A0), `mle_inplace` (A0), `mle_parameters_lost_refuted` (A0), `elicit` (A0), `default` (A0), `default_fixed_refuted` (A0), `match` (A0) |
| C87 | `maxent` (A2), `quartile` (A2), `match` (A2), `new_open` (A2), `outside_bounds` (A2), `new_complete` (A2), `fixed_params_refuted` (A2), `hurdle_without_psi_refuted` (A2), `families` (A4), `inner_fixed_refuted` (A2), `keyword_names_refuted` (A4), `mixture_fit` (A2), `mixture_stale_refuted` (A2), `mixture_new` (A2), `mixture_values` (A2), `mixture_elicit_refuted` (A2), `mle_refuted` (A2), `fixed_mode` (A2) |
| C88 | `truncated_cdf` (A4), `truncated_ppf` (A4), `truncated_ppf_refuted` (A4), `hurdle_cdf` (A4), `hurdle_cdf_refuted` (A4), `hurdle_ppf` (A4), `hurdle_ppf_refuted` (A4), `mixture_weights` (A4), `mixture_cdf` (A4), `mixture_cdf_refuted` (A4), `sf` (A4), `isf` (A4), `eti` (A4), `logit` (A4), `expit` (A4), `constant_sample_refuted` (A4), `std` (A4), `combine` (A4), `combine_refuted` (A4) |
| C89 | `exponential` (A4), `exponential_refuted` (A4), `gamma` (A4), `wald` (A4), `precision` (A4), `precision_refuted` (A4), `beta` (A4), `negativebinomial` (A4), `beta_refuted` (A4), `negativebinomial_refuted` (A4) |
| C90 | `truncated` (A4), `censored` (A4), `hurdle` (A4), `hurdle_list_refuted` (A4), `hurdle_ppf` (A2), `hurdle_ppf_refuted` (A2), `mixture` (A4), `mixture_ppf` (A2), `mixture_ppf_stuck` (A2), `mixture_ppf_refuted` (A2), `bounds` (A2), `bounds_refuted` (A2), `quantiles_any_shape` (A2), `mixture_matrix_refuted` (A2) |
| C91 | `grid` (A4), `grid_places` (A4), `grid_ties_refuted` (A4), `variance` (A4), `variance_on_grid` (A4), `integrals` (A4), `sums` (A4), `mixture` (A4), `mixture_var_refuted` (A4) |
| C92 | `shape` (A2), `vector` (A2), `mixture` (A2), `mixture_shape_refuted` (A2), `truncated_mixture_refuted` (A2), `reshaped` (A2), `seed` (A2), `generator` (A2), `no_seed` (A2), `state` (A2), `censored` (A2), `components` (A2) |
<!-- end assumptions -->

### 4.2 What is modelled

A function counts as cited when a model definition cites lines inside it; the comment at that definition says what is
simplified. "ptd_" functions are one-line wrappers of the external library, modelled as calls in `EvalTable.v`.
Plotting, widgets and notebook code are not modelled unless listed.

<!-- coverage -->
| file | functions cited | not modelled |
|---|---|---|
| `distributions/asymmetric_laplace.py` | 41 | none |
| `distributions/bernoulli.py` | 40 | _to_logit_p |
| `distributions/beta.py` | 52 | none |
| `distributions/betabinomial.py` | 39 | none |
| `distributions/betascaled.py` | 49 | _from_mu_sigma, _from_mu_nu, _to_mu_sigma |
| `distributions/binomial.py` | 40 | _fit_moments, _fit_mle |
| `distributions/catalog.py` | 7 | none |
| `distributions/categorical.py` | 32 | none |
| `distributions/cauchy.py` | 43 | none |
| `distributions/censored.py` | 16 | none |
| `distributions/chi_squared.py` | 39 | none |
| `distributions/continuous_multivariate.py` | 23 | _get_frozen |
| `distributions/discrete_uniform.py` | 39 | none |
| `distributions/discrete_weibull.py` | 31 | none |
| `distributions/distributions.py` | 54 | none |
| `distributions/distributions_multivariate.py` | 15 | __init__, xvals, pdf |
| `distributions/exgaussian.py` | 37 | ptd_mode |
| `distributions/exponential.py` | 39 | none |
| `distributions/gamma.py` | 41 | none |
| `distributions/geometric.py` | 39 | none |
| `distributions/gumbel.py` | 39 | none |
| `distributions/halfcauchy.py` | 39 | none |
| `distributions/halfnormal.py` | 39 | none |
| `distributions/halfstudentt.py` | 39 | none |
| `distributions/hurdle.py` | 14 | none |
| `distributions/hypergeometric.py` | 39 | none |
| `distributions/inversegamma.py` | 42 | none |
| `distributions/kumaraswamy.py` | 39 | none |
| `distributions/laplace.py` | 40 | none |
| `distributions/logistic.py` | 39 | none |
| `distributions/logitnormal.py` | 39 | none |
| `distributions/loglogistic.py` | 39 | none |
| `distributions/lognormal.py` | 39 | none |
| `distributions/mixture.py` | 15 | none |
| `distributions/moyal.py` | 39 | none |
| `distributions/negativebinomial.py` | 41 | none |
| `distributions/normal.py` | 49 | none |
| `distributions/pareto.py` | 39 | none |
| `distributions/plot.py` | 1 | none |
| `distributions/poisson.py` | 39 | none |
| `distributions/rice.py` | 39 | ptd_mode |
| `distributions/skew_studentt.py` | 37 | ptd_mode |
| `distributions/skewnormal.py` | 37 | ptd_mode |
| `distributions/studentt.py` | 39 | none |
| `distributions/triangular.py` | 39 | none |
| `distributions/truncated.py` | 17 | none |
| `distributions/truncatednormal.py` | 39 | none |
| `distributions/uniform.py` | 39 | none |
| `distributions/vonmises.py` | 42 | none |
| `distributions/wald.py` | 42 | none |
| `distributions/weibull.py` | 39 | none |
| `distributions/zi_binomial.py` | 39 | none |
| `distributions/zi_negativebinomial.py` | 41 | none |
| `distributions/zi_poisson.py` | 39 | none |
| `internal/citations.py` | 2 | none |
| `internal/distribution_helper.py` | 12 | none |
| `internal/optimization.py` | 29 | none |
| `internal/plot_helper.py` | 22 | plot_decorator, create_figure, reset_dist_panel |
| `internal/plot_helper_multivariate.py` | 8 | joint_normal |
| `internal/predictive_helper.py` | 2 | none |
| `internal/rcparams.py` | 24 | RcParams.__repr__ |
| `internal/special.py` | 7 | gammaln |
| `multidimensional/dirichlet_mode.py` | 1 | none |
| `ppls/agnostic.py` | 11 | none |
| `ppls/bambi_io.py` | 7 | none |
| `ppls/pymc_io.py` | 15 | none |
| `predictive/ppa.py` | 10 | none |
| `predictive/ppe.py` | 1 | none |
| `predictive/predictive_explorer.py` | 1 | none |
| `unidimensional/combine.py` | 1 | none |
| `unidimensional/combine_roulette.py` | 1 | none |
| `unidimensional/matching.py` | 3 | none |
| `unidimensional/maxent.py` | 3 | none |
| `unidimensional/mle.py` | 1 | none |
| `unidimensional/quartile.py` | 1 | none |
| `unidimensional/quartile_int.py` | 4 | none |
| `unidimensional/roulette.py` | 12 | Roulette._create_figure, Roulette._reset_dist_panel |

2131 of 2153 functions are cited.
<!-- end coverage -->

## 5. Findings

Theorems with the suffix `_refuted` show that the code, as modelled, does not have a property one would expect. Each gives a
concrete witness or a class of witnesses.

<!-- findings -->
* `C01_nan_probability_refuted` (RcProps.v): Finding: the probability setting accepts nan.
* `C01_one_is_stored_as_false_refuted` (RcProps.v): Finding: assigning the integer 1 to the boolean setting is accepted and stores False.
* `C03_failed_entry_leaks_refuted` (RcProps.v): Finding: a block whose settings are partly invalid is not entered, and the settings applied before the invalid one stay applied for the rest of the program.
* `C04_warnings_fail_refuted` (RcProps.v): FINDING. The exception is a TypeError: a file that loads up to a line without a colon, or up to a key that it has already set, or that cannot be decoded, is refused because the call that should give a warning fails. A file that cannot be opened is an OSError.
* `C07_kumaraswamy_zero_refuted` (FamProps.v): With [a = 0] and [b] omitted it is frozen although incomplete, with b = nan.
* `C07_zinb_without_psi_refuted` (FamProps.v): ... but without psi it is frozen with psi = nan.
* `C07_wald_phi_dropped_refuted` (FamProps.v): Wald(phi=...) alone silently drops phi from the reported names.
* `C10_hypergeometric_fraction_refuted` (FamProps.v): ... but with a fractional argument it is computed from the raw value and disagrees with the parameters.
* `C11_studentt_default_nu_refuted` (FitProps.v): Degrees of freedom that are not given, or at most 2, are replaced and sigma is not adjusted: the standard deviation is not the requested one.
* `C11_beta_clamp_refuted` (FitProps.v): Beta parameters below 1/2 are clamped: an attainable mean is missed.
* `C11_exgaussian_mean_refuted` (FitProps.v): ExGaussian: the mean is off by nu = 1e-4.
* `C11_asymmetric_laplace_documented_refuted` (FitProps.v): AsymmetricLaplace: with the variance formula of its docstring, (1 + kappa^4) / (b^2 kappa^2), the fit is right for one standard deviation only.
* `C11_truncated_bounds_lost_refuted` (FitProps.v): Truncated(Normal(), 0, 5) fitted to mean 1 and sd 2 has its bounds removed.
* `C11_rice_rayleigh_refuted` (RiceProps.v): Small ratios: the standard deviation of a Rayleigh variable is 0.655 sigma, so sigma should be sd / 0.655. The code multiplies: the fitted standard deviation is less than half of the requested one, whatever the mean.
* `C11_weibull_negative_refuted` (WeibullProps.v): A standard deviation of five times the mean gives a negative shape, which no Weibull distribution has.
* `C12_fractional_bound_refuted` (TruncProps.v): A bound that is not an integer breaks this for discrete bases: the probabilities no longer add up to 1.
* `C13_zero_refuted` (TruncProps.v): A draw of exactly 0 from a truncated discrete distribution falls below the lower bound.
* `C15_cdf_at_upper_bound_refuted` (CensProps.v): At the upper bound the code reports the base cdf, although the clipped variable has all its mass there.
* `C15_equal_bounds_refuted` (CensProps.v): With equal bounds the single point does not get probability one.
* `C16_skewness_refuted` (CensProps.v): skewness() is not that of the clipped variable: it mixes standardised moments of different scales. Here the clipped variable takes 1, 2, 3, 3 with equal probability; its third central moment is negative, the code reports a positive skewness.
* `C17_cdf_negative_refuted` (HurdleProps.v): Below zero the code reports 1 - psi instead of 0.
* `C17_cdf_gap_refuted` (HurdleProps.v): Between 0 and 2^-52 the cdf of a continuous base can be smaller than at 0: not monotone.
* `C17_frozen_without_psi_refuted` (HurdleProps.v): A hurdle without psi counts as frozen although nothing can be computed from it.
* `C18_unfrozen_weights_not_normalised_refuted` (MixProps.v): Without normalisation (a component without parameters) the weights are used as given.
* `C19_mixture_grouped_refuted` (MixProps.v): Values come grouped by component: the i-th value is not drawn from the i-th chosen component.
* `C19_mixture_size_zero_refuted` (MixProps.v): Asking for no values raises.
* `C19_combine_size_not_exact_refuted` (PoolProps.v): Finding: three equally weighted distributions and a sample size of 1000 give 999 draws.
* `C21_mass_checked_refuted` (LawProps.v): The mass itself is not checked: a negative mass gives an interval whose ends are swapped.
* `C21_default_format_refuted` (LawProps.v): With two decimals both ends of the interval of a narrow continuous distribution are the same number, so the reported interval has no mass.
* `C24_inside_when_sampled_refuted` (LawProps.v): In that case the last point is beyond the upper end point of the support.
* `C27_failed_start_hides_others_refuted` (SelProps.v): The failure of one start hides the later ones: with a first start that fails and a second that would have satisfied the constraint, the call raises instead of using it.
* `C27_fixed_stat_refuted` (SelProps.v): With a fixed statistic the two errors are subtracted from one another, so a run that misses both the mass and the statistic counts as satisfying the constraint.
* `C29_too_few_data_refuted` (SelProps.v): With exactly one more observation than parameters the computation fails; with fewer, the penalty is below k and it rewards extra parameters.
* `C30_returns_the_quantile_refuted` (QuantProps.v): So the claim that the search returns the quantile itself is false when the level is a value of the distribution function: for a fair die and q = 1/2 a root finder may answer 3.7, which is neither a face nor within 1/2 of the median 3.
* `C31_large_bound_diverges_refuted` (DirProps.v): If the bound is at least as large as every component of the mode, all lower bounds are zero, the marginal probabilities are zero for every concentration, and the search never ends.
* `C32_fixed_params_persist_refuted` (ApiProps.v): The assignment of [fixed_params] happens before the checks, so it stays when the call is rejected.
* `C32_betascaled_fixed_ignored_refuted` (ApiProps.v): FINDING. BetaScaled ignores [fixed_params] that do not have both alpha and beta: maxent goes on as if nothing had been fixed.
* `C32_nan_endpoint_refuted` (ApiProps.v): An endpoint that is nan passes all checks: the call goes on to fit.
* `C32_missing_mode_freezes_refuted` (ApiProps.v): A request to fix the mode of a distribution without one is only rejected after the moment fit, which has frozen the object by then.
* `C34_array_kurtosis_refuted` (ApiProps.v): Kurtosis is compared with something else: the target from an array is the sample's kurtosis without the 3 subtracted, so it is always three more than what the fitted distribution reports.
* `C34_array_order_refuted` (ApiProps.v): In any other order the targets are permuted: with "vm" the variance is compared with the mean of the sample.
* `C34_any_finite_refuted` (ApiProps.v): One finite target is enough to pass the check, although the message asks for all to be finite.
* `C35_short_weights_drop_experts_refuted` (PoolProps.v): Finding: a weight list shorter than the list of experts is accepted, and the remaining experts are silently ignored.
* `C36_negative_chips_refuted` (RouletteProps.v): Finding: a click inside the axes just below the grid stores a negative number of chips.
* `C37_x_values_are_shifted_refuted` (RouletteProps.v): Finding: the x value of a column is half a step to the right of the label printed under the column; for the last column it is beyond x_max.
* `C37_negative_probability_refuted` (RouletteProps.v): Finding: a stray click below the axis can make the elicited "probabilities" negative and larger than 1.
* `C38_key_error_runs_twice_refuted` (JitProps.v): A KeyError from inside the compiled function is mistaken for a missing entry: the function runs a second time, and the generator advances twice.
* `C41_interleaved_refuted` (PplProps.v): A top-level variable after a hierarchical one: the positions of the lines no longer agree with the positions of the variables. Either the line of another variable is overwritten and that variable is lost, or the index is out of range.
* `C41_bambi_unbalanced_refuted` (PplProps.v): The Bambi text is never a complete dictionary, and after a hierarchical variable its parentheses do not match either.
* `C42_few_samples_refuted` (PpaProps.v): Fewer than nine samples to show: the search runs down to neighbour zero. If the tree refuses, the session raises; if it answers some sample already in the batch, the session never ends.
* `C42_empty_axis_refuted` (PpaProps.v): An axis without a sample can be clicked; the next request then raises ValueError.
* `C42_target_refuted` (PpaProps.v): With a target, samples outside the boundaries are displayed, and the sample nearest to the target is not.
* `C44_clipped_sum_refuted` (GeoProps.v): The coordinates handed to the density do not sum to one at a corner.
* `C45_exception_refuted` (GeoProps.v): An exception leaves the instance with mu = 0: asking an instance without parameters for its interval gives it a location, which later fits take as fixed by the user.
* `C45_format_refuted` (GeoProps.v): With fmt = ".3f" the end point of an interval that reaches pi is reported outside [-pi, pi].
* `C46_singular_refuted` (MvProps.v): Though the distribution is built with allow_singular=True, a singular covariance is an error.
* `C46_mean_refuted` (MvProps.v): mean() never returns.
* `C46_rejected_variance_refuted` (MvProps.v): A covariance that is refused changes the variance and the summary of a distribution that had one, though not its density; the mean in the summary is still the old one.
* `C46_stale_refuted` (MvProps.v): Taking the parameters away does not unfreeze the object: it goes on reporting and using the old ones, but has no variance.
* `C46_dirichlet_stale_refuted` (MvProps.v): The same for Dirichlet: without parameters, it still evaluates with the old ones, while mode() raises.
* `C46_no_fit_refuted` (MvProps.v): No multivariate distribution can be fitted: maxent and quartile raise whatever they are asked, and mle raises if the sample is in the support and gives the candidate an infinite loss otherwise.
* `C47_moments_units_refuted` (ResProps.v): Which of two candidates matches the moments better depends on the units of the data.
* `C48_discrete_exact_root_refuted` (MixProps.v): For an integer valued variable an exact root exists only for the values taken by the cdf, so a root finder cannot return one and what find_ppf returns need not be an integer.
* `C49_nan_quantile_refuted` (ApiProps.v): A quantile that is nan passes the check.
* `C51_constant_refuted` (MleProps.v): A constant sample gives sigma = 0, outside the parameter's support.
* `C52_triangular_refuted` (MleProps.v): The mode need not lie between the ends.
* `C52_binomial_refuted` (MleProps.v): The sample 3, 3, 3, 4 gives a Binomial with fewer than 4 trials and a probability above one.
* `C52_exgaussian_refuted` (MleProps.v): A skewness above 2 gives no standard deviation.
* `C53_logit_refuted` (BoundProps.v): Bernoulli keeps the bounds of p for logit_p, which cut off every negative log-odds.
* `C53_ml_alternative_refuted` (BoundProps.v): In an alternative parametrization the bounds of the alternative parameters are applied to the canonical ones: a Beta given by its mean can only be fitted with alpha below one, an AsymmetricLaplace given by q only with kappa below one, however the sample looks.
* `C53_vonmises_guess_refuted` (BoundProps.v): The guess of VonMises is outside the bounds as soon as the requested mean is not an angle in [-pi, pi].
* `C54_info_refuted` (CatInfoProps.v): The modifiers, which the catalog lists when it is shown, have no information: TypeError. Neither have three names that its own groups contain: AttributeError (unless the module gets such an attribute).
* `C54_info_categorical_refuted` (CatInfoProps.v): For Categorical the names are one text instead of a tuple of names, and the support is not known. It is the only one.
* `C54_unknown_filter_refuted` (CatProps.v): An unknown kind filters nothing; an unknown support filters Categorical only.
* `C54_bounded_missed_refuted` (CatProps.v): The bounded filter looks at instances without parameters, so it misses families that are bounded whenever their parameters are set.
* `C54_misnamed_refuted` (CatProps.v): Exactly these categories cannot be instantiated: they name ScaledInverseChiSquared, Hypergeometric or MultivariateNormal, which do not exist.
* `C54_category_support_refuted` (CatProps.v): The two exceptions, and what the code gives there.
* `C55_parametrizations_refuted` (CatProps.v): Four families accept alternatives that they do not report.
* `C55_format_refuted` (CatProps.v): A Uniform on a tiny interval is described as having support (0, 0).
* `C57_shared_alternative_refuted` (BackProps.v): A list of alternatives is shared by all variables. Whenever two variables end with the same alternative, they end with the same prior, that of the variable processed last: the fit of the first variable is lost.
* `C57_ppe_auto_refuted` (BackProps.v): ppe with new_families="auto" never returns as soon as the model has a variable with one element: the classes Normal, HalfNormal and Gamma are offered in the place of instances.
* `C57_matrix_refuted` (BackProps.v): A variable with two or more dimensions cannot be back fitted: ppe never gets a prior for it.
* `C58_random_state_refuted` (BackProps.v): The argument random_state does not reach the draws from a single target: the projection is the same for every generator.
* `C58_model_restored_refuted` (BackProps.v): If compiling or minimising raises, and this includes an interruption by the user, the observed variable keeps the placeholder: the model no longer holds the data.
* `C58_engine_refuted` (BackProps.v): An engine that is neither "pymc" nor "bambi" is not reported: everything is computed and then the name of the result is missing. The automatic choice gives such an engine for every other object.
* `C58_logs_refuted` (BackProps.v): But a logger that had no level of its own has one afterwards: it no longer follows its parent.
* `C59_bound_arrays_refuted` (PmBoundProps.v): A bound that differs from entry to entry is not converted: whatever the variable, ValueError is raised.
* `C59_mixed_inputs_refuted` (PymcProps.v): For three families PyMC mixes two parameters in one input, so a known parameter is lost when the other one is open: from pm.NegativeBinomial.dist(mu=5, alpha=nan) nothing of mu is left.
* `C59_truncated_halfnormal_refuted` (PymcProps.v): The extra input of HalfNormal is skipped for the variable itself but not for its truncation: with sigma known, from_pymc of a truncated half-normal variable raises.
* `C59_hurdle_truncated_refuted` (PymcProps.v): The branch drops the word "Truncated" from the name of the base, but not the two bounds from its inputs: whatever the parameters, a hurdle whose base is truncated at zero (as PyMC builds them for discrete families) raises.
* `C59_to_pymc_context_refuted` (PymcProps.v): A modifier inside a modifier converts outside of a model, but raises inside of one: to_pymc depends on the context.
* `C59_to_bambi_base_lost_refuted` (PymcProps.v): The prior of a modified distribution does not say what is modified: truncations of two families with the same parameters give the same prior, and the bounds of a truncated Uniform overwrite those of the Uniform itself.
* `C59_uniform_bounds_overwritten_refuted` (PymcProps.v): Modifier parameters named like base parameters replace them: of Truncated(Uniform(a, b), lower, upper) the prior only keeps the outer bounds.
* `C59_to_bambi_mixture_refuted` (PymcProps.v): The bambi prior of a mixture is called Mixture and has the weights as given, but one value for each name of a parameter. So, of several components of one family, only the last is left.
* `C59_bambi_round_trip_refuted` (PymcProps.v): FINDING. Of truncated, censored, hurdle and mixed families no prior that to_bambi makes can be read back: KeyError or AttributeError.
* `C60_censored_refuted` (HdiProps.v): For a censored distribution the masses at both bounds are counted even if the interval does not reach the bounds. For a Uniform(0, 1) censored at 0.2 and 0.8 the problem posed for a mass of 0.9 has the solution (0.25, 0.75), which holds half of the probability.
* `C60_no_solution_refuted` (HdiProps.v): The equality constraint of that problem need not have a solution: the chance that a 300-sided die falls into an interval is a multiple of 1/300.
* `C60_unknown_interval_refuted` (HdiProps.v): A word that is neither "hdi" nor "eti" is not rejected with a message: the function fails because no interval was computed.
* `C61_hurdle_variance_refuted` (StatProps.v): When the support of the base starts at 1 the grid misses the value 0: the variance of a hurdle die with psi = 1/2 comes out as 2.99 instead of 4.52.
* `C61_sparse_grid_refuted` (StatProps.v): With more than 201 values only 200 of them enter the sums: the mean of a truncated die with 1000 faces is at most 200 instead of 500.5.
* `C61_entropy_nan_refuted` (StatProps.v): A hurdle over a base that starts at 2: the value 1 has probability zero and 0 * log 0 makes the entropy NaN.
* `C61_censored_entropy_refuted` (StatProps.v): A fair die with four faces censored below 2: the clipped variable is 2, 2, 3, 4 but entropy() is too large by (log 4) / 4.
* `C61_censored_kurtosis_refuted` (StatProps.v): kurtosis() of a censored distribution is not that of the clipped variable: it mixes moments standardised by different scales. For 1, 2, 3, 3 the code reports -1.70 instead of -1.37.
* `C61_hurdle_continuous_variance_refuted` (StatProps.v): The variance of a continuous hurdle ignores the mass at zero: for a uniform variable on [1/2, 1] behind a hurdle with psi = 1/2 it reports 0.08 instead of 0.15.
* `C62_beta_refuted` (SourceProps.v): A prior that is a BetaScaled or a BetaBinomial is read as a Beta: the pattern tries the names in the order of __all__ and Beta matches first.
* `C62_modifier_refuted` (SourceProps.v): A prior that is truncated, censored, hurdle or a mixture cannot be read: the class is called without its arguments.
* `C62_return_comment_refuted` (SourceProps.v): The comments are not removed before the returned names are looked for: a comment can take the place of the return.
* `C62_return_tuple_refuted` (SourceProps.v): A function that returns its variables in parentheses cannot be read: AttributeError.
* `C62_bambi_refuted` (SourceProps.v): With bambi, ppa raises AttributeError for every model in which it finds a prior: it takes the arguments of the prior for the name of its family.
* `C62_unused_parameter_refuted` (SourceProps.v): A parameter that appears in no argument of a distribution (for instance because it is used in an earlier line) stops the explorer with KeyError.
* `C62_keyword_refuted` (SourceProps.v): Keyword arguments out of order get each other's limits: here the scale of a Normal is shown with the limits of its location.
* `C62_no_initial_values_refuted` (SourceProps.v): A parameter used in a distribution that cannot be made without arguments stops the explorer: KeyError for MvNormal, Mixture and Hurdle, TypeError for Truncated and Censored.
* `C62_nested_commas_refuted` (SourceProps.v): An argument that is a call with several arguments shifts the positions: here the parameter is shown as the scale of the Normal, and with a HalfNormal the explorer fails with IndexError.
* `C62_nested_calls_refuted` (SourceProps.v): Two pairs of parentheses inside each other hide the arguments: here b is not found although it is the scale of the Normal.
* `C62_expit_refuted` (SourceProps.v): For a probability given by expit or logistic, the box is labelled with the lower limit infinity: no number is between the limits, although every number gives a probability.
* `C62_exp_probability_refuted` (SourceProps.v): The upper limit is never corrected: for the success probability of a Bernoulli given by exp(a), the box allows every a below 1, but exp(a) is a probability only for a below 0.
* `C62_repeated_name_refuted` (SourceProps.v): A name returned twice breaks the rows: its samples are twice as many as the predictions.
* `C62_unreturned_prior_refuted` (SourceProps.v): A prior that the function does not return is read, but has no samples: making a selection raises KeyError, whatever is selected.
* `C63_ecdf_top_refuted` (ExploreProps.v): The empirical curve never reaches 1: the largest of n values is drawn at 1 - 1/n, where the empirical distribution function is 1.
* `C63_line_after_histogram_refuted` (ExploreProps.v): Once a histogram has been drawn, every later redraw as a density or as an empirical distribution fails and shows nothing: the bins and the other settings of the histogram stay in the dictionary, and the line plots refuse them.
* `C63_histogram_after_line_refuted` (ExploreProps.v): A density or empirical distribution followed by a histogram of two draws or more ends the session: neither that histogram nor anything asked for later is drawn.
* `C63_stale_bins_refuted` (ExploreProps.v): The bins of the first histogram of an integer-valued model serve for all later ones. When the parameters change and the draws move above the first range, no value of the new draws falls into any bin.
* `C63_user_style_refuted` (ExploreProps.v): The user's own colour and line style serve for the first histogram only.
* `C63_nan_histogram_refuted` (ExploreProps.v): A histogram fails as soon as one draw holds a NaN, though such draws are meant to be left out: as many colours are asked for as there were draws, and there are fewer data sets.
* `C63_prior_histogram_refuted` (ExploreProps.v): The prior of a scalar parameter of a PyMC or Bambi model cannot be shown as a histogram.
* `C63_prior_default_refuted` (ExploreProps.v): Asked for the prior without a variable name, the explorer looks for the observed variable, not for the last free parameter as documented; the prior group has no such variable.
* `C63_stats_kwargs_refuted` (ExploreProps.v): The dictionary that the user passed as stats_kwargs is changed.
* `C64_drawing_keeps_refuted` (DrawProps.v): Truncated(Normal(mu=[0, 1], sigma=1), -1, 3): the object still says mu=[0, 1], and after it has been drawn its base distribution, with which it computes every density, has mu=1. The base distribution is the user's own object.
* `C64_discrete_style_refuted` (DrawProps.v): Poisson([1, 4]).plot_pdf(ls="--"): the first curve is dashed, the second is dotted.
* `C64_numpy_scalar_refuted` (DrawProps.v): A parameter that is a numpy scalar such as np.float32(1) or np.int32(3) is one number, the distribution is drawn as one curve, and yet the other methods refuse it.
* `C64_mle_plot_kwargs_refuted` (DrawProps.v): Whenever there is something to draw, a dictionary of keywords for the plot is taken by [mle] for the moments to show: it raises ValueError as soon as one key is not a piece of "mdvsk", as no keyword of a plot is.
* `C65_single_value_refuted` (PointProps.v): An interval that is a single value, as the highest density interval of a discrete distribution often is, is taken for one that wraps around the circle: lines are drawn from it to pi and from minus pi to it, whatever the distribution.
* `C65_dot_is_median_refuted` (PointProps.v): With quantiles the dot is the middle one of the list: it is not the median unless that level is a half.
* `C66_zero_refuted` (SliderProps.v): A parameter that is 0 gets a slider from -10 to 10 whatever its limits: VonMises(mu=0, kappa=1) offers means outside the circle, and a probability 0 of a Categorical any number up to 10.
* `C66_infinite_refuted` (SliderProps.v): A parameter that is infinite, such as the upper end of Truncated(HalfNormal(1), lower=1), has no slider: the method fails.
* `C66_integer_slider_refuted` (SliderProps.v): Binomial(n=5, p=0.5): the slider of n offers 0, which is not within the limits of n.
* `C66_categorical_refuted` (SliderProps.v): A probability of 0 breaks this: its slider goes from -10 to 10.
* `C66_hurdle_refuted` (SliderProps.v): An undefined Hurdle has no default values, and neither has a Truncated or Censored of a class without them.
* `C67_logit_p_refuted` (CategProps.v): The log odds of each value are taken on their own, so the probabilities they give add up to 1 only by chance: equal log odds of 0 for n values give each the probability 1/2.
* `C67_one_slider_refuted` (CategProps.v): From a distribution there is no way to another with one slider: whichever slider is moved, wherever to, either nothing is drawn or what is drawn has probabilities that add up to less than 1.
* `C67_logit_p_sliders_refuted` (CategProps.v): A Categorical given by its log odds cannot be explored: the name of the parameter is cut at its underscore.
* `C67_fit_refuted` (CategProps.v): FINDING. A Categorical cannot be fitted to a sample. mle is an exception for a new one and for one whose values include all of the sample; otherwise the candidate is left out.
* `C68_all_names_refuted` (WidgetProps.v): Without names (no caller does so) it means every distribution there is, and always raises: the modifiers are among them.
* `C68_params_refuted` (WidgetProps.v): Editing the params box does not refit: the result shown is not the one for that text.
* `C69_resize_refuted` (WidgetProps.v): After a change of the grid the result and the inputs are still those of the chips that were wiped out.
* `C69_empty_selection_refuted` (WidgetProps.v): With nothing selected the result is removed, but the picture of the last one stays.
* `C69_none_sticky_refuted` (WidgetProps.v): While None is ticked the other boxes cannot be ticked.
* `C69_dimensions_refuted` (WidgetProps.v): Dimensions the boxes do not accept are used all the same: 150 columns are drawn while the box says 100; with one column (the box says 2) nothing can ever be elicited.
* `C69_upper_limit_refuted` (WidgetProps.v): Nothing prevents the upper limit from being set to the lower one: then every chip has the same value.
* `C70_categorical_refuted` (PriorProps.v): A Categorical prior makes the second list, and with it the whole answer, impossible: the classes considered include its own, which cannot be ranked.
* `C71_hurdle_refuted` (ShowProps.v): A Hurdle of a defined distribution for which psi is missing counts as defined but cannot be shown: TypeError.
* `C71_nested_refuted` (ShowProps.v): The base of a modifier of a modifier is not shown: a truncated Hurdle of a Normal and one of a Moyal with the same parameters look the same.
* `C71_truncated_normal_refuted` (ShowProps.v): A truncated Normal and the family TruncatedNormal have the same name, and so have mixtures that contain them.
* `C72_keywords_refuted` (PlotProps.v): Keywords for matplotlib (color, alpha, ...) are documented for plot, but multivariate distributions do not take them.
* `C72_defaults_refuted` (PlotProps.v): plot(dist) is not dist.plot_pdf() for multivariate distributions: support and legend have other defaults, so that plot adds no title.
* `C72_axes_title_refuted` (PlotProps.v): Given axes, the title (the default legend of the methods) makes every plot of marginals fail after it has been drawn.
* `C72_one_dimension_refuted` (PlotProps.v): The marginal of a one-dimensional distribution cannot be drawn without axes.
* `C72_limits_refuted` (PlotProps.v): In the interactive plot the panels share their axes, and each marginal sets the limits for all: only the last one is sure to be in view.
* `C73_refit_refuted` (SampleProps.v): FINDING. Ten families cannot be fitted when all their parameters have values: the search for their starting point is left with nothing to search for and scipy rejects the empty bounds. Fitting the same objects to a second sample, or passing mle a fully specified BetaBinomial, raises ValueError, although mle documents that it fits all parameters.
* `C73_skewed_refuted` (SampleProps.v): FINDING. A SkewNormal cannot be fitted to a sample whose skewness is beyond one in size (an exponential sample has skewness two): the shape it starts from is the root of a negative number, and scipy rejects the start. The hypothesis says that the mean of a SkewNormal whose shape is not a number is not a number.
* `C73_stale_support_refuted` (SampleProps.v): FINDING. A distribution with bounds among its parameters, once fitted, keeps the support of that sample. A second fit of the same object to values beyond it leaves it as it was, with an infinite loss: still frozen, so mle gives no warning, and with the parameters of the old sample.
* `C73_counts_refuted` (SampleProps.v): FINDING. Counts cannot be fitted: the number of trials of a BetaBinomial or a ZeroInflatedBinomial is cut to an integer before the likelihood is computed, so the likelihood is the same at n and at every number up to n + 1. The differences from which the optimiser estimates its direction (steps of about 1e-8) are zero, and n stays where it started, at the default.
* `C74_numpy_integers_refuted` (WarnProps.v): FINDING. Integers from numpy are not recognised: maxent complains that bounds taken from an array of integers are not integers.
* `C74_nan_mass_refuted` (WarnProps.v): FINDING. If the mass of the fitted distribution is not a number nothing is said.
* `C74_fractional_bound_refuted` (WarnProps.v): FINDING. With a lower bound that is not an integer the mass of a discrete distribution includes the integer below it: all of the mass at 2, none of it between 2.5 and 4, and no warning about the mass.
* `C74_quartile_shifted_refuted` (WarnProps.v): FINDING. Only the mass between the first and the third value is looked at: with 10, 20 and 60 per cent below the three values instead of 25, 50 and 75, there is no warning.
* `C74_quartile_discrete_refuted` (WarnProps.v): FINDING. For discrete distributions the probability of the first value is counted with the mass between, but not in the quartiles: a distribution whose quartiles are exactly those requested is reported as wrong as soon as that probability is more than 0.00005.
* `C74_zero_target_refuted` (WarnProps.v): FINDING. A target of zero, such as the skewness of a symmetric source, must be met to one part in ten thousand million: the millionth in the denominator is far below any tolerance of the optimiser.
* `C74_infinite_target_refuted` (WarnProps.v): FINDING. A target that is infinite or not a number is never reported as missed, whatever the fitted value.
* `C74_repeated_letter_refuted` (WarnProps.v): FINDING. With an array and a letter given twice the targets are fewer than the moments; if the second value is off the message cannot be made, and match_moments raises IndexError.
* `C74_defined_candidate_refuted` (WarnProps.v): FINDING. One candidate that was already defined, whatever its support, silences the warning: nothing is fitted, and mle returns an order of the candidates as if something was.
* `C75_roulette_betascaled_ignored_refuted` (LoopProps.v): FINDING. Roulette ignores what the user fixes for BetaScaled, unless both alpha and beta are given: the call does the same as without it.
* `C75_quartile_betascaled_one_bound_refuted` (LoopProps.v): FINDING. In QuartileInt, bounds of BetaScaled are honoured only when both are given: otherwise the call stops with KeyError, whatever else was fixed.
* `C75_quartile_betascaled_shape_ignored_refuted` (LoopProps.v): FINDING. In QuartileInt, alpha alone or beta alone is ignored for BetaScaled.
* `C75_roulette_betascaled_bounds_refuted` (LoopProps.v): FINDING. BetaScaled as fitted by Roulette always has the ends of the grid as its bounds, also when the user fixed lower, upper and the shapes.
* `C76_sampled_too_low_refuted` (CurveProps.v): FINDING. With more values the line of plot_cdf is too low at some whole number within the plot, for every cdf that increases at each of them.
* `C76_upper_unmarked_refuted` (CurveProps.v): FINDING. With the support that is the default, the mark at the upper bound is missing whenever less than one in ten thousand is censored at the lower bound, however much is censored at the upper one.
* `C76_mark_height_refuted` (CurveProps.v): FINDING. The height of a mark is not the probability of the bound, nor on the scale of probabilities: for a uniform distribution on (0, 1) censored at 1/4 and 3/4 both are 1.5, for probabilities of 1/4.
* `C77_given_axes_refuted` (MultiProps.v): FINDING. With axes given and the default legend, the call ends with an exception after drawing every panel.
* `C77_few_axes_refuted` (MultiProps.v): FINDING. With fewer axes than components the last ones are left out, without an exception.
* `C77_one_component_refuted` (MultiProps.v): FINDING. A distribution with one component cannot be plotted.
* `C77_dirichlet_ppf_refuted` (MultiProps.v): FINDING. plot_interactive(kind="ppf") of a Dirichlet tries to draw the cdf and ends with an exception before anything is drawn, at every position of the sliders and with any limits.
* `C77_ppf_limits_refuted` (MultiProps.v): FINDING. With these limits nothing below -0.075 of the quantile 0.999 can be seen, and if that quantile is negative the vertical axis is upside down and nothing above -0.075 of it or below 1.5 of it can be seen.
* `C77_narrow_normal_refuted` (MultiProps.v): FINDING. If a standard deviation is 1/600 or less the joint plot is an exception.
* `C77_concentrated_refuted` (MultiProps.v): FINDING. When the largest value of the density on the mesh holds more than half of the total, two of the three levels are equal: unless it holds, with the next one, more than 0.94 of the total, the plot is an exception; if it does, the third level is the same too and regions are filled.
* `C77_xvals_refuted` (MultiProps.v): FINDING. xvals("restricted") is an AttributeError for both, and for an MvNormal so is xvals("full"). Any other name is taken for "full" instead of being rejected.
* `C78_three_levels_refuted` (GraphProps.v): A model of three levels cannot be written: as soon as one hierarchical variable depends on another, IndexError.
* `C79_written_sequence_refuted` (RcIterProps.v): The texts Python shows for an empty tuple or list and for a tuple of one entry are not read back: brackets alone, and what follows the last comma, count as an empty entry.
* `C81_name_refuted` (CiteProps.v): FINDING. The name of a method as a string, which the documentation allows, is taken for a list of its letters: the result is empty, also for a name that does not exist.
* `C82_return_refuted` (ScreenProps.v): After the new prior has been shown, the figure has the single axis of its text. A further request draws the first sample of the new batch there and counts the others as shown without ever drawing them.
* `C82_references_refuted` (ScreenProps.v): References that do not survive str and literal_eval, such as an array, vanish from all panels with the first change of any other choice.
* `C82_nothing_within_refuted` (ScreenProps.v): When no sample is within the boundaries there is no batch, and drawing it raises ValueError.
* `C82_only_first_refuted` (ScreenProps.v): When sample zero is the only accepted one, the panel of the accepted samples shows all samples.
* `C83_left_behind_refuted` (LabelProps.v): FINDING. If a plot without axes raises and no figure is open, an empty figure stays behind and is the active one: the next plot is drawn there, whatever size it asks for.
* `C83_figsize_refuted` (LabelProps.v): FINDING. While a figure with axes is active, or axes are given, figsize has no effect.
* `C83_other_letters_refuted` (LabelProps.v): FINDING. The documentation says that letters other than m, d, v, s and k are ignored. They are a ValueError and nothing is drawn, unless legend is None or a text of the caller's; then the argument moments is not looked at and no moments are shown, whatever it is.
* `C83_true_refuted` (LabelProps.v): FINDING. With legend=True the curve gets its label, but no box is made; the label shows up when a later plot on the same axes asks for a legend.
* `C83_goes_on_refuted` (LabelProps.v): FINDING. Nothing depends on the notice: outside a notebook, where the message says that the tool cannot run, it goes on.
* `C83_unnamed_refuted` (LabelProps.v): FINDING. Roulette and QuartileInt are not named in their notice: it is the constructor that is.
* `C83_terminal_refuted` (LabelProps.v): FINDING. In IPython outside a notebook no tool says anything.
* `C84_array_refuted` (BoxProps.v): A parameter without a number as its default that is used in a Categorical or a Dirichlet stops the explorer with TraitError: the distribution starts from an array, which no text box holds.
* `C84_unused_refuted` (BoxProps.v): A parameter that no distribution of the function takes stops the explorer with KeyError, even if it has a default.
* `C84_integer_default_refuted` (BoxProps.v): A count with a default, n=5 here, gets a box for any number: whatever is typed there is passed on, 5.1 for instance, with which Binomial fails.
* `C84_limits_refuted` (BoxProps.v): The limits are only written beside the box: -1 typed as the scale of a Normal is passed on, and the limits of the mean of a VonMises, -pi and pi, are shown as -3 and 3.
* `C85_equal_weights_refuted` (ChipProps.v): Experts with the same weight do not count the same: the opinion of whoever places nine chips on one column counts nine times that of whoever places one chip on another, although both report that they are certain.
* `C86_mle_parameters_lost_refuted` (ConvProps.v): Finding: given PyMC variables or Priors only, mle returns their order, and no object the caller has holds the parameters that were found, whether the call succeeds or not.
* `C86_default_fixed_refuted` (ConvProps.v): Finding: without a distribution, fixed_params ends maxent and quartile with an AttributeError, also for parameters a Normal has.
* `C87_fixed_params_refuted` (WrapProps.v): fixed_params does not work on a modifier: naming parameters of the base, maxent and quartile always raise ValueError; the modifier is frozen although parameters are missing, and bounds not named again are lost.
* `C87_hurdle_without_psi_refuted` (WrapProps.v): After the fit that precedes the optimisation a hurdle without psi has no value of psi to start from: the starting point of maxent cannot be computed.
* `C87_inner_fixed_refuted` (WrapProps.v): The parameters given to the distribution before it was modified are not held fixed: after maxent on Truncated(d, lo, up) or Censored(d, lo, up), where d is not completely specified, every parameter of d has a value found by the optimiser, also those the user had given to d.
* `C87_keyword_names_refuted` (WrapProps.v): Keyword arguments given to the modifier for another parameter set of the base are reported under the wrong names: Truncated(Gamma(), 1, 9, mu=2, sigma=1) has the parameter names alpha, beta, lower, upper with the values 2, 1, 1, 9.
* `C87_mixture_stale_refuted` (WrapProps.v): The parameters and the support a fitted mixture reports are those from before the fit, and so are the weights among the parameters: a mixture of open components is then complete (frozen) with parameters None.
* `C87_mixture_elicit_refuted` (WrapProps.v): No elicitation function works on a mixture of univariate families: the parameters of the components are not attributes of the mixture. Whatever the arguments, the mixture is left as it was and an exception is raised.
* `C87_mle_refuted` (WrapProps.v): mle never fits a modifier or a mixture: none of the classes has the method. A sample outside the support gets an infinite loss, any other raises AttributeError.
* `C88_truncated_ppf_refuted` (FloatProps.v): A quantile of a truncated distribution can lie beyond the upper bound: the uniform distribution on [0, 1] truncated to [0.3, 0.9] has 0.9000000000000001 as its quantile at 1.
* `C88_hurdle_cdf_refuted` (FloatProps.v): From 0 to the positive points it can decrease: with psi = 0.2 and a wrapped distribution three quarters of whose mass are positive (Bernoulli(0.75), say), the cdf is 0.8 at 0 and 0.7999999999999999 just after.
* `C88_hurdle_ppf_refuted` (FloatProps.v): The quantile at 1 of a hurdle distribution can be nan: with psi = 0.3 and (almost) no mass cut off, the wrapped distribution is asked for its quantile at 1.0000000000000002.
* `C88_mixture_cdf_refuted` (FloatProps.v): Beyond 1 it can go: four members with weights 2, 4, 3 and 1, added from left to right, give 1.0000000000000002 where every member has its whole mass. The survival function is then negative and its logarithm nan.
* `C88_constant_sample_refuted` (FloatProps.v): The mean and standard deviation of a sample of three times 0.1 are 0.10000000000000002 and not 0: a fit by maximum likelihood to a constant sample has a positive scale.
* `C88_combine_refuted` (FloatProps.v): A share of 29 draws in 100 gives 28: 100 times 0.29 is 28.999999999999996.
* `C89_exponential_refuted` (FloatConvProps.v): Not the scale that was given: 49 becomes 49.00000000000001.
* `C89_precision_refuted` (FloatConvProps.v): Not close otherwise: a precision of 1 / eps = 2^52 is reported as half of it.
* `C89_beta_refuted` (FloatConvProps.v): A Beta distribution that is far from symmetric reports a mean of 1; that mean gives back a distribution with beta = 0.
* `C89_negativebinomial_refuted` (FloatConvProps.v): A NegativeBinomial distribution with alpha far above mu reports p = 1; that p gives back a distribution with mu = 0.
* `C90_hurdle_list_refuted` (ArrProps.v): Hurdle on a Python list: the density (and its logarithm) is that of the scaled base everywhere, also at 0, where it should be 1 - psi; the cumulative probability raises TypeError.
* `C90_hurdle_ppf_refuted` (ArrProps.v): Quantiles of integers: those between 0 and 1 become integers. A quantile that is not an integer is truncated, and an infinite one is replaced by some finite number: [ppf(1)] of a hurdle over an unbounded base is not infinite.
* `C90_mixture_ppf_refuted` (ArrProps.v): Quantiles of a mixture for integers: a number outside 0 and 1 raises ValueError, where [ppf(2.0)] is nan, and so do all the others asked with it; and no entry is ever infinite: [ppf(1)] of a mixture of Normal distributions is not the infinity that [ppf(1.0)] is.
* `C90_bounds_refuted` (ArrProps.v): If the lower bound of a discrete distribution is given as a numpy array, each evaluation lowers it by one: after [n] evaluations of [cdf] the distribution is truncated at [lower - n], and the next value is that of the distribution truncated there.
* `C90_mixture_matrix_refuted` (RngProps.v): A mixture has no quantiles of a matrix of more than one column: ValueError.
* `C91_grid_ties_refuted` (FloatGridProps.v): Entries can coincide: the grid of 1000 values from 1 to the next double has its first two values equal, so widths of 0.
* `C91_mixture_var_refuted` (FloatGridProps.v): The variance of a Mixture can be negative and its standard deviation nan: two members with mean 5 and a variance of at most 2^-50 (Normal(5, 1e-8)), weights 1 and 2, give a variance of -2^-48.
* `C92_mixture_shape_refuted` (RngProps.v): So [Mixture(...).rvs()] is an array of one value and not a number, and [rvs((a, b))] a vector and not a matrix (documented: "int or tuple of ints").
* `C92_truncated_mixture_refuted` (RngProps.v): A truncated mixture refuses every matrix of more than one column with ValueError ("the truth value of an array is ambiguous").
<!-- end findings -->
