{"id": "C01", "title": "rcParams only ever holds known keys with valid values", "statement": "Whatever sequence of item assignments, dict updates, context entries and exits and forbidden mapping operations is performed on preliz.rcParams (each of which may succeed or raise), afterwards the keys are exactly the default keys, plots.show_plot and every other boolean setting is a bool, stats.ci_kind is 'eti' or 'hdi' in lower case, and stats.ci_prob is a float that is not below 0 and not above 1.", "quantifier": "all finite histories of rcParams operations, all keys (strings), all Python values", "why_tests_cant": "Tests replay a handful of calls; the claim is about every finite history of calls, including failing ones.", "anchors": ["preliz/internal/rcparams.py: RcParams.__setitem__, RcParams.update, defaultParams, _validate_probability, _validate_boolean, _make_validate_choice"]}
{"id": "C02", "title": "A rejected rcParams assignment changes nothing", "statement": "Assigning an unknown key raises KeyError, assigning a value the validator refuses raises an exception, and deleting, clearing, popping or setdefault-ing raises TypeError; in all these cases every key reads back what it read before, and an accepted assignment changes only its own key. plots.show_plot takes True, False and the texts true and false in any case; stats.ci_prob takes the numbers from 0 to 1, and texts that are such numbers; stats.ci_kind takes the texts eti and hdi in any case.", "quantifier": "all rcParams states, all keys, all values", "why_tests_cant": "Every state, key and value is a separate case, and histories of assignments are unbounded; tests try a few bad values from the default state.", "anchors": ["preliz/internal/rcparams.py: RcParams.__setitem__, __delitem__, clear, pop, popitem, setdefault"]}
{"id": "C03", "title": "rc_context restores the settings", "statement": "For every nesting of `with rc_context(...)` blocks whose bodies assign settings and may raise at any point, the settings after the outermost block are the settings before it, provided the context could be entered. A context whose own settings are partly invalid raises while entering and can leave the valid ones applied: this is the only leak.", "quantifier": "all block structures (unbounded nesting and length), all bodies, all exception points", "why_tests_cant": "Tests replay a handful of calls; the claim is about every finite history of calls, including failing ones.", "anchors": ["preliz/internal/rcparams.py: rc_context.__init__, __enter__, __exit__"]}
{"id": "C04", "title": "rc file parsing", "statement": "Reading an rc file: comments (from the first '#'), blank lines and spaces around key and value have no effect; a file of distinct well formed 'key : value' lines yields exactly those validated settings whatever their order; a line without ':' or a repeated key makes the call fail with TypeError, and no later line is reached.", "quantifier": "all files (lists of lines of any length)", "why_tests_cant": "A settings file is an arbitrary sequence of lines; tests read the shipped file and a few variants.", "anchors": ["preliz/internal/rcparams.py: read_rcfile, rc_params"]}
{"id": "C05", "title": "rc file location precedence", "statement": "The rc file used is the first existing non-directory path in the order: ./prelizrc, $ARVIZ_DATA/prelizrc, then the user config directory candidates; if none exists None is returned; a path that is a directory is never chosen.", "quantifier": "all environments (cwd, variables, platform) and file-system states", "why_tests_cant": "The product of environment states is not enumerable by tests.", "anchors": ["preliz/internal/rcparams.py: get_preliz_rcfile"]}
{"id": "C06", "title": "Incompatible parametrizations are rejected, and only those", "statement": "For every family with alternative parametrizations, constructing it raises ValueError exactly when arguments from two alternative parameter sets are mixed (as documented per family), for every other combination of given and omitted arguments it does not raise that error.", "quantifier": "all families with alternatives, all combinations of given/omitted arguments, all real values", "why_tests_cant": "Tests evaluate a few parameter values; the claim is about every real parameter value, a continuum.", "anchors": ["preliz/distributions/normal.py: Normal._parametrization", "preliz/distributions/beta.py: Beta._parametrization", "preliz/distributions/gamma.py", "preliz/distributions/wald.py", "preliz/distributions/asymmetric_laplace.py", "preliz/distributions/negativebinomial.py"]}
{"id": "C07", "title": "A distribution is frozen exactly when a complete parameter set was given", "statement": "After construction, is_frozen is true iff one complete documented parameter set was supplied; then params has one non-missing value per entry of param_names. Exceptions of the code (Kumaraswamy with a=0, ZeroInflatedNegativeBinomial without psi, Hurdle without psi, Wald edge cases) are exhibited.", "quantifier": "all families, all combinations of given/omitted arguments, all real values including 0", "why_tests_cant": "Tests evaluate a few parameter values; the claim is about every real parameter value, a continuum.", "anchors": ["preliz/distributions/*.py: _parametrization, _update", "preliz/distributions/kumaraswamy.py", "preliz/distributions/zi_negativebinomial.py"]}
{"id": "C08", "title": "Alternative parameters read back as given", "statement": "If a family is constructed with a complete alternative parameter set inside its valid region, the reported params equal the given values (for precision-type parameters tau/lam the reported value is t/(1+eps*t), so equality holds up to relative error eps*t), and the canonical attributes equal the documented transformation.", "quantifier": "all families with alternatives, all values in the valid region", "why_tests_cant": "Tests evaluate a few parameter values; the claim is about every real parameter value, a continuum.", "anchors": ["preliz/distributions/*.py: _parametrization, _update", "preliz/internal/distribution_helper.py: from_precision, to_precision"]}
{"id": "C09", "title": "Canonical and alternative construction agree", "statement": "Constructing a family with the alternative parameters that another instance of it reports gives an instance with the same canonical parameters (exactly, or up to the eps bias for precisions).", "quantifier": "all families with alternatives, all valid canonical values", "why_tests_cant": "Tests evaluate a few parameter values; the claim is about every real parameter value, a continuum.", "anchors": ["preliz/distributions/*.py: _parametrization, _update"]}
{"id": "C10", "title": "Support tracks the parameters through any history of updates", "statement": "After any sequence of parameter updates on families whose support depends on parameters (Uniform, DiscreteUniform, Pareto, Triangular, TruncatedNormal, BetaScaled, Binomial, BetaBinomial, HyperGeometric, ZeroInflatedBinomial), support reports the interval determined by the current parameters, and params/attributes agree. Exceptions in the code, each exhibited by a theorem: HyperGeometric built with a fractional argument (its support is computed from the raw value).", "quantifier": "all finite histories of updates, all real/integer values", "why_tests_cant": "Tests replay a handful of calls; the claim is about every finite history of calls, including failing ones.", "anchors": ["preliz/distributions/uniform.py", "preliz/distributions/discrete_uniform.py", "preliz/distributions/pareto.py", "preliz/distributions/betascaled.py", "preliz/distributions/truncatednormal.py", "preliz/distributions/hypergeometric.py", "preliz/distributions/zi_binomial.py"]}
{"id": "C11", "title": "Moment initialisation reproduces the requested mean and standard deviation", "statement": "For the families with closed-form moment fits the distribution obtained from (mean, sigma) has exactly that mean and that standard deviation whenever they are attainable (Normal, Laplace, AsymmetricLaplace, Logistic, LogNormal, Gamma, InverseGamma, Gumbel, Moyal, Pareto, Wald, Triangular, Beta and BetaScaled away from their clamp), exactly the mean (Exponential, Poisson, Geometric, ChiSquared, Bernoulli), or exactly the standard deviation (HalfNormal, HalfStudentT); Uniform is within 1e-5 relative and DiscreteUniform encloses the exact interval. Weibull has exactly the mean; up to a sigma of twice the mean its shape and scale are positive, and with sigma equal to the mean it is the exponential distribution with both moments. Exceptions in the code, each exhibited by a theorem: StudentT and HalfStudentT without degrees of freedom above 2 keep sigma unadjusted; Beta parameters are clamped at 1/2; ExGaussian misses the mean by 1e-4; AsymmetricLaplace read with the variance formula of its docstring; Rice with a small ratio of mean and deviation; Weibull gets a negative shape from a sigma of five times the mean; Truncated loses its bounds.", "quantifier": "all families named, all real mean and all sigma>0 in the attainable region", "why_tests_cant": "Tests evaluate a few parameter values; the claim is about every real parameter value, a continuum.", "anchors": ["preliz/distributions/*.py: _fit_moments"]}
{"id": "C12", "title": "Truncated distributions are probability distributions on the truncation interval", "statement": "For every base distribution with positive mass in [lower, upper], the truncated cdf is non-decreasing, takes values in [0,1], is 0 below the lower bound and 1 from the upper bound on, and for discrete bases the pmf is its increment (so it sums to 1 over the interval); for continuous bases the pdf is its derivative inside the interval and it vanishes outside. Exceptions in the code, each exhibited by a theorem: a bound that is not an integer around a discrete base: the probabilities no longer add up to 1.", "quantifier": "all base distributions, all bounds including infinite ones, all x", "why_tests_cant": "Tests use a few named families; the claim is about every base distribution that meets the stated contract.", "anchors": ["preliz/distributions/truncated.py: Truncated.cdf, Truncated.logpdf, Truncated.pdf, adjust_lower"]}
{"id": "C13", "title": "Truncated quantiles invert the truncated cdf", "statement": "For 0 < q <= 1 the truncated ppf is the generalised inverse of the truncated cdf (ppf(q) <= x iff q <= cdf(x) for x in the interval) and lies in [lower, upper]; q outside [0,1] gives nan; samples obtained by inversion lie inside the interval. (At q = 0 a discrete truncation returns lower-1, outside the support.)", "quantifier": "all base distributions, bounds and q", "why_tests_cant": "Tests use a few named families; the claim is about every base distribution that meets the stated contract.", "anchors": ["preliz/distributions/truncated.py: Truncated.ppf, Truncated.rvs"]}
{"id": "C14", "title": "Truncation laws", "statement": "Truncating with infinite bounds changes nothing; truncating twice is truncating to the intersection; the order of the two truncations is irrelevant.", "quantifier": "all base distributions and bounds", "why_tests_cant": "Tests use a few named families; the claim is about every base distribution that meets the stated contract.", "anchors": ["preliz/distributions/truncated.py: Truncated"]}
{"id": "C15", "title": "Censored distributions are probability distributions", "statement": "The censored pmf/pdf gives mass dist.cdf(lower) to the lower bound and the upper tail mass to the upper bound, sums to one, agrees with the base inside the bounds and vanishes outside; the censored ppf is the clipped base ppf and stays inside the bounds. (The reported cdf at the upper bound is not 1: exhibited.)", "quantifier": "all base distributions, bounds, x and q", "why_tests_cant": "Tests use a few named families; the claim is about every base distribution that meets the stated contract.", "anchors": ["preliz/distributions/censored.py: Censored"]}
{"id": "C16", "title": "Censored mean and variance are those of the clipped variable", "statement": "mean() and var() of a censored distribution equal the expectation and variance of the base variable clipped to the bounds; with infinite bounds they are the base moments. Exceptions in the code, each exhibited by a theorem: the reported skewness is not that of the clipped variable.", "quantifier": "all finitely supported (and moment-abstracted) base distributions and bounds", "why_tests_cant": "Tests use a few named families; the claim is about every base distribution that meets the stated contract.", "anchors": ["preliz/distributions/censored.py: Censored.mean, var"]}
{"id": "C17", "title": "Hurdle distributions are probability distributions", "statement": "The hurdle pmf/pdf gives probability 1-psi to zero, distributes psi over the non-zero values proportionally to the base, and sums to one; its cdf is non-decreasing in [0,1] on x>=0; mean and variance are those of the mixture it describes. Exceptions in the code, each exhibited by a theorem: below zero the cdf is 1 - psi instead of 0; between 0 and 2^-52 the cdf of a continuous base can drop; a hurdle without psi counts as frozen.", "quantifier": "all base distributions on the non-negatives, all psi in [0,1]", "why_tests_cant": "Tests use a few named families; the claim is about every base distribution that meets the stated contract.", "anchors": ["preliz/distributions/hurdle.py: Hurdle"]}
{"id": "C18", "title": "Mixture distributions", "statement": "The weights used by a mixture are non-negative and sum to one whatever non-negative weights were given; its pdf and cdf are the weighted sums (so the cdf is monotone in [0,1] and the pmf sums to one), its mean is the weighted mean and its variance obeys the law of total variance; the result is invariant under permutation of the components and splitting of a component, and scaling all weights by a constant changes nothing. The mean and the variance, of any kind of mixture, are those of the mixed variable. Exceptions in the code, each exhibited by a theorem: while a component has no parameters the weights are used as given, not normalised.", "quantifier": "all finite lists of components (unbounded length), all weight vectors", "why_tests_cant": "Tests use a few named families; the claim is about every base distribution that meets the stated contract.", "anchors": ["preliz/distributions/mixture.py: Mixture"]}
{"id": "C19", "title": "Sample sizes of mixtures and combinations", "statement": "A mixture draws exactly the requested number of samples, each from one of its components; combine draws from each distribution a number proportional to its weight rounded down, so the total never exceeds the requested size and misses it by less than the number of distributions. Exceptions in the code, each exhibited by a theorem: a mixture returns its values grouped by component; asking a mixture for no values raises; combining with equal weights can return fewer values than asked for.", "quantifier": "all component lists, weights, sizes and random choices", "why_tests_cant": "Tests use a few named families; the claim is about every base distribution that meets the stated contract.", "anchors": ["preliz/distributions/mixture.py: Mixture.rvs", "preliz/unidimensional/combine.py: combine"]}
{"id": "C20", "title": "Survival, inverse-survival and log variants are consistent", "statement": "sf(x) = 1 - cdf(x), isf(q) = ppf(1-q), logcdf and logsf are the logarithms of cdf and sf; isf inverts sf in the generalised sense for every distribution satisfying the cdf/ppf contract.", "quantifier": "all distributions satisfying the contract, all x and q", "why_tests_cant": "Tests use a few named families; the claim is about every base distribution that meets the stated contract.", "anchors": ["preliz/distributions/distributions.py: Distribution.sf, isf, logcdf, logsf"]}
{"id": "C21", "title": "Equal-tailed intervals cover the requested mass", "statement": "For every distribution and mass in (0,1), eti returns an ordered pair whose probability content is at least mass (exactly mass for continuous distributions), with at most (1-mass)/2 below and above; increasing the mass can only widen the interval; undefined distributions, non scalar parameters and Categorical are rejected with ValueError. (The mass itself is not validated, and the default two-decimal format can collapse the interval: both exhibited.)", "quantifier": "all distributions satisfying the cdf/ppf contract, all masses", "why_tests_cant": "Tests use a few named families; the claim is about every base distribution that meets the stated contract.", "anchors": ["preliz/distributions/distributions.py: Distribution.eti, valid_scalar_params"]}
{"id": "C22", "title": "Discrete highest-density intervals cover the requested mass", "statement": "The hdi of a discrete distribution contains at least the requested mass, its end points are values of the grid, and, however ties are ordered, the set of points selected has the smallest possible number of points among all sets with that mass; for a strictly unimodal pmf on consecutive integers no shorter interval has that mass.", "quantifier": "all finite pmf tables (unbounded length), all masses, all tie orders", "why_tests_cant": "Tables of any length and, for equal probabilities, every order a sort may leave them in; tests try a few distributions.", "anchors": ["preliz/internal/optimization.py: discrete_hdi, find_hdi"]}
{"id": "C23", "title": "moments() reports the requested moments in the requested order", "statement": "For any string over the letters m,d,v,s,k (any length, repetitions allowed) moments returns one value per letter in that order; any other string raises ValueError.", "quantifier": "all strings", "why_tests_cant": "The string of letters is arbitrary, with repetitions and unknown letters anywhere; tests try a few.", "anchors": ["preliz/distributions/distributions.py: Distribution.moments"]}
{"id": "C24", "title": "xvals lies in the support", "statement": "For continuous and discrete distributions the grid used for plotting and hdi is sorted, inside the finite end points; discrete grids are integers and contain every support point when the range is at most n. (When the discrete range exceeds n the last point is upper+1, outside: exhibited.)", "quantifier": "all end points, all n", "why_tests_cant": "Supports and numbers of points range over all values, with infinite ends; tests look at a few distributions.", "anchors": ["preliz/distributions/distributions.py: xvals, _finite_endpoints, _discrete_xvals"]}
{"id": "C25", "title": "Intervals outside the support are refused", "statement": "When maxent is asked for a mass inside an interval, or quartile for given quartiles, the distribution is accepted exactly if the interval (from the first to the third quartile) lies inside its support and is not the whole of a bounded support; otherwise ValueError is raised. Where several candidates are compared (mle, the interactive tools) nothing is raised: a candidate takes part exactly when the range of the data is inside its support.", "quantifier": "all supports (finite or infinite, numeric) and intervals", "why_tests_cant": "Every pair of an interval and a support, with finite and infinite ends, is a separate case; tests try a handful.", "anchors": ["preliz/distributions/distributions.py: _check_endpoints"]}
{"id": "C26", "title": "Fixed parameters stay fixed during optimisation", "statement": "When an optimiser updates a distribution with some parameters fixed, every fixed parameter keeps its value and the free parameters receive the optimiser's values in declaration order, whatever subset is fixed.", "quantifier": "all parameter lists (any length), all subsets, all proposed vectors", "why_tests_cant": "There are exponentially many subsets of fixed parameters and a search visits unboundedly many vectors; tests look at the result of a few.", "anchors": ["preliz/internal/optimization.py: get_fixed_params, get_params, optimize_max_ent"]}
{"id": "C27", "title": "Maximum entropy selects the best feasible start", "statement": "Among the optimiser runs that satisfy the mass constraint to tolerance, maxent keeps one with the largest entropy; if none satisfies it, the first run is used; if all runs failed an error is raised. Exceptions in the code, each exhibited by a theorem: one failing start hides the later ones; with a fixed statistic the two errors are subtracted, so a run that misses both can count as satisfying the constraint.", "quantifier": "all lists of optimiser outcomes (any length)", "why_tests_cant": "The outcome depends on what an external optimiser returns from each start, in any order; tests see one outcome sequence.", "anchors": ["preliz/internal/optimization.py: optimize_max_ent"]}
{"id": "C28", "title": "Fit ranking returns a minimiser", "statement": "The distribution selected by fitting to samples/quantiles/pdf is one with the smallest finite loss among the candidates (first on ties), nan and infinite losses never win over finite ones, and mle reports candidates sorted by loss.", "quantifier": "all candidate lists, all loss values including inf and nan", "why_tests_cant": "Lists of any length with any pattern of losses, ties and infinities; tests rank a few candidates.", "anchors": ["preliz/internal/optimization.py: Loss, fit_to_sample, fit_to_epdf", "preliz/unidimensional/mle.py: mle"]}
{"id": "C29", "title": "Small-sample penalty", "statement": "The penalty of a distribution with k free parameters on n observations is the AICc penalty k + k(k+1)/(n-k-1); for n > k+1 it is positive, increasing in k and decreasing in n; for n = k+1 the computation fails, and for n <= k it is lower than k (so over-parametrised models are favoured): exhibited.", "quantifier": "all n and k", "why_tests_cant": "The claim is about all numbers of observations and of parameters, including the degenerate ones; tests use comfortable sample sizes.", "anchors": ["preliz/internal/optimization.py: get_penalization"]}
{"id": "C30", "title": "Discrete mode and quantile search", "statement": "The discrete mode search returns the first maximiser of the pmf on the grid. For every distribution function with the right limits the quantile search terminates with a bracket around the crossing; for an integer valued variable and a level that the distribution function jumps over, the value returned rounds to the quantile k, the only integer with cdf(k-1) < q <= cdf(k); for a level that it takes, the value lies between the quantile and the next possible value. Exceptions in the code, each exhibited by a theorem: at a level that the distribution function takes, the value returned need not be near the quantile.", "quantifier": "all pmf tables; all distribution functions, levels and supports, any number of bracket extensions", "why_tests_cant": "The loops and the position of the crossing depend on the whole distribution function; tests try a few levels of a few distributions.", "anchors": ["preliz/internal/optimization.py: find_discrete_mode, find_ppf, _ppf_single"]}
{"id": "C31", "title": "Dirichlet mode elicitation keeps the requested mode", "statement": "At every iteration of the concentration search the Dirichlet parameters exceed one and the mode of the current distribution is exactly the (normalised) requested mode, so whenever dirichlet_mode returns, the mode is as requested and the mean marginal mass is within 1e-4 of the target.", "quantifier": "all mode vectors (any length), all masses, all iteration counts, all cdf behaviours", "why_tests_cant": "Any dimension and any number of iterations of the search; tests try three or four components.", "anchors": ["preliz/internal/optimization.py: optimize_dirichlet_mode", "preliz/multidimensional/dirichlet_mode.py: dirichlet_mode"]}
{"id": "C32", "title": "maxent argument validation and state", "statement": "maxent raises ValueError for a mass outside (0,1], for lower >= upper, for an already frozen distribution, for an unknown fixed statistic or an interval outside the support; in every such case the distribution passed by the caller is not frozen by the call; a second maxent on the same object raises. (A fixed-parameter assignment made before validation does persist: exhibited.) Exceptions in the code, each exhibited by a theorem: fixed_params stays assigned when the call is rejected; BetaScaled ignores fixed_params without both alpha and beta; a nan end point passes the checks; a missing mode is only rejected after the object has been given parameters.", "quantifier": "all argument combinations", "why_tests_cant": "All combinations of invalid arguments and states of the object; tests try one invalid argument at a time.", "anchors": ["preliz/unidimensional/maxent.py: maxent"]}
{"id": "C33", "title": "quartile argument validation", "statement": "quartile rejects quartiles that are not strictly increasing, frozen distributions, and quartiles outside the support, before any optimisation.", "quantifier": "all argument combinations", "why_tests_cant": "All combinations of invalid arguments and states of the object; tests try one invalid argument at a time.", "anchors": ["preliz/unidimensional/quartile.py: quartile"]}
{"id": "C34", "title": "match_moments compares like with like", "statement": "When matching a distribution to another distribution, the i-th target statistic and the i-th fitted statistic are the same kind of moment for every moment string. For array inputs this holds only when the string lists moments in the order m,v,d,s,k: for other orders the targets are permuted (exhibited). Exceptions in the code, each exhibited by a theorem: the kurtosis of an array is compared three too high; moments in another order than the code expects are permuted; one finite target is enough to pass the check.", "quantifier": "all moment strings", "why_tests_cant": "The string of moments is arbitrary; tests try a few strings and families.", "anchors": ["preliz/unidimensional/matching.py: match_moments"]}
{"id": "C35", "title": "combine_roulette pools elicited histograms", "statement": "Pooling elicited histograms on the same grid yields a probability vector: non-negative, summing to one, equal to the weighted average of the inputs; scaling the weights changes nothing; inputs on different grids are rejected. Exceptions in the code, each exhibited by a theorem: a list of weights shorter than that of the experts drops the remaining experts.", "quantifier": "all numbers of experts, grids and chip allocations", "why_tests_cant": "Any number of experts and grid columns with any weights; tests pool two or three.", "anchors": ["preliz/unidimensional/combine_roulette.py: combine_roulette"]}
{"id": "C36", "title": "Roulette grid consistency", "statement": "After any sequence of clicks, the coloured cells of the roulette grid are exactly the first weights[c] cells of each column c; every click changes only its own column; clicks outside the grid do nothing; column heights never exceed the number of rows; clicking a cell at or below the current height removes it and everything above. (A click in the margin just below the axis makes a weight negative: exhibited.)", "quantifier": "all finite click histories, all real coordinates, all grid sizes", "why_tests_cant": "Tests replay a handful of calls; the claim is about every finite history of calls, including failing ones.", "anchors": ["preliz/unidimensional/roulette.py: _Rectangles.__call__"]}
{"id": "C37", "title": "Roulette histogram to pdf", "statement": "The empirical pdf derived from the chips is a probability vector when at least one chip is present, proportional to the chips, and empty columns carry no mass; the x positions are increasing and equally spaced; (the last position lies beyond x_max: exhibited). Exceptions in the code, each exhibited by a theorem: a click below the axis makes probabilities negative.", "quantifier": "all weight dictionaries and ranges", "why_tests_cant": "Grids of any size with any chips; tests place a few chips on one grid.", "anchors": ["preliz/unidimensional/roulette.py: _weights_to_pdf"]}
{"id": "C38", "title": "Compiled-function caches are transparent", "statement": "Calling a jitted distribution function returns what the uncached function would return for those arguments, whatever calls were made before, in any order; the cache holds one entry per argument signature and is never invalidated wrongly. Exceptions in the code, each exhibited by a theorem: a KeyError raised inside the compiled function makes it run twice and advances the generator twice.", "quantifier": "all call histories, all signatures and arguments", "why_tests_cant": "Tests replay a handful of calls; the claim is about every finite history of calls, including failing ones.", "anchors": ["preliz/internal/distribution_helper.py: pytensor_jit, pytensor_rng_jit"]}
{"id": "C39", "title": "Extra-parameter strings", "statement": "Text of the form 'Name(k=v, ...)' typed in the box for extra parameters (of Roulette and QuartileInt) or given to combine_roulette fixes, for each distribution named, the parameters named to the values written: any list of such entries reads back as written, whatever stands between them; an entry with a value that is not a number is dropped as a whole; a later entry for the same name wins. Nothing else in the text fixes anything.", "quantifier": "all strings", "why_tests_cant": "The text is arbitrary and unbounded; tests try a few well formed strings.", "anchors": ["preliz/internal/distribution_helper.py: process_extra"]}
{"id": "C40", "title": "Projected draws are given back to the variable they belong to", "statement": "ppe hands every variable of the model exactly the columns of the projected draws that belong to it, in the order of the variables and in the shape of the variable: every column is used exactly once, and putting the blocks side by side gives back the draws.", "quantifier": "all lists of variables with arbitrary sizes and shapes, all numbers of draws", "why_tests_cant": "Any number of variables of any shape; an off-by-one in the running position shows only for particular mixtures of shapes.", "anchors": ["preliz/ppls/pymc_io.py: unravel_projection"]}
{"id": "C41", "title": "Generated model code mentions each variable once", "statement": "The PyMC code that ppe and posterior_to_prior print has exactly one assignment line for every top-level free variable, in model order, with the parameters of its own fit or, when it is a parent of a hierarchical variable, of the last such refit; hierarchical variables must follow the top-level ones. The Bambi code has one entry for every variable with a fitted prior, in order, with its shape if it has more than one element. Exceptions in the code, each exhibited by a theorem: with interleaved hierarchical variables lines are overwritten or the index runs out of range, and the Bambi text is not balanced.", "quantifier": "all lists of variables", "why_tests_cant": "Any number of variables in any order; tests use models of two or three variables.", "anchors": ["preliz/ppls/pymc_io.py: write_pymc_string"]}
{"id": "C42", "title": "Prior predictive assessment never re-shows a sample", "statement": "During a prior predictive session, each displayed batch has at most nine distinct samples never displayed before, inside the boundaries unless a target was given; requests terminate while nine unseen samples remain; once all are seen the session reports exhaustion; the accepted set only grows, contains every confirmed choice, and holds nothing but confirmed choices and machine-added samples inside the boundaries. Exceptions in the code, each exhibited by a theorem: with fewer than nine samples the session raises or does not end; an empty axis can be clicked and the next request raises; with a target, samples outside of the boundaries are displayed.", "quantifier": "all interaction histories, all distance structures and boundaries", "why_tests_cant": "Tests replay a handful of calls; the claim is about every finite history of calls, including failing ones.", "anchors": ["preliz/predictive/ppa.py: FilterDistribution"]}
{"id": "C43", "title": "logit and expit are inverse; moments helpers", "statement": "expit maps reals into (0,1), logit inverts it; logit is -inf at 0, inf at 1 and nan outside [0,1]; xlogx is continuous at 0 with value 0; mean_and_std of a sample is equivariant under shift and scale and std is non-negative and zero exactly for constant samples.", "quantifier": "all reals; all samples", "why_tests_cant": "Tests evaluate a few values; the claim is about every real number and every sample of any length.", "anchors": ["preliz/internal/special.py"]}
{"id": "C44", "title": "Barycentric coordinates on the simplex plot", "statement": "The Cartesian-to-barycentric conversion used by the Dirichlet simplex plot gives coordinates that sum to one before clipping; the weighted sum of the triangle's corners inverts it in both directions; the clipped coordinates are exact away from the border, always within the tolerance of it, and sum to one up to the tolerance. The grid of marginal panels has a place for every component.", "quantifier": "all points of the plane, all tolerances, all numbers of panels", "why_tests_cant": "Tests evaluate a few parameter values; the claim is about every real parameter value, a continuum.", "anchors": ["preliz/internal/plot_helper_multivariate.py: xy2bc"]}
{"id": "C45", "title": "VonMises intervals are wrapped into [-pi, pi]", "statement": "The eti and hdi end points reported for a von Mises distribution lie in [-pi, pi] and are congruent modulo 2*pi to the unwrapped end points; mu is unchanged after the call when it returns. Exceptions in the code, each exhibited by a theorem: an exception leaves mu at 0; with few decimals an end point is reported outside of [-pi, pi].", "quantifier": "all mu, all intervals", "why_tests_cant": "Tests evaluate a few parameter values; the claim is about every real parameter value, a continuum.", "anchors": ["preliz/distributions/vonmises.py: eti, hdi, _warp_interval"]}
{"id": "C46", "title": "Multivariate parametrizations", "statement": "MvNormal accepts exactly one of cov and tau and reports the one given; its variance is the diagonal of the covariance (of the inverse of tau) and the summary reports the mean and the roots of the variance. Dirichlet reports a mode iff all concentrations exceed one, and that mode is a probability vector, the only one of the largest density. Exceptions in the code, each exhibited by a theorem: a singular covariance is an error although it is allowed; mean() never returns; a covariance that is refused changes the variance and the summary, but not the density, of a distribution that had one; taking the parameters away leaves the old ones in use (both families) and the variance undefined; no multivariate distribution can be fitted by maxent, quartile or mle.", "quantifier": "all vectors of any dimension", "why_tests_cant": "Any dimension and any vector or matrix; tests use two or three dimensions.", "anchors": ["preliz/distributions/continuous_multivariate.py: Dirichlet, MvNormal", "preliz/distributions/distributions_multivariate.py: Multivariate, Continuous", "preliz/internal/optimization.py: fit_to_sample"]}
{"id": "C47", "title": "Quantile and moment constraints used for fitting vanish exactly at a solution", "statement": "The functions minimised by match_quantiles, match_moments, quartile and the mean/standard-deviation fit are non-negative and zero iff the fitted distribution has the requested quantiles / moments / quartile probabilities / mean and standard deviation; the relative error of a mass is zero iff the mass is the requested one; which of two candidates is better does not depend on the units of the data. Exceptions in the code, each exhibited by a theorem: for match_moments, which of two candidates is better does depend on the units.", "quantifier": "all distributions, all targets", "why_tests_cant": "Tests use a few named families; the claim is about every base distribution that meets the stated contract.", "anchors": ["preliz/internal/optimization.py: optimize_quantiles, optimize_quartile, optimize_mean_sigma, relative_error"]}
{"id": "C48", "title": "Quantiles by root finding terminate inside a bracket", "statement": "For every distribution function of a finite variable and every q strictly between 0 and 1, the generic quantile search used by Mixture and other distributions without closed-form ppf finds, in finitely many steps, two finite points around the quantile; with a root finder that returns a crossing point (up to a tolerance) the value returned is that close to where the cdf crosses q, and at q=0, q=1 and outside [0,1] it returns the end of the support, respectively nan. Exceptions in the code, each exhibited by a theorem: for an integer valued variable an exact root need not exist, so the result need not be an integer.", "quantifier": "all cdfs, all q, all supports, any number of bracket extensions", "why_tests_cant": "Termination of the two while loops and correctness of the bracket depend on the whole cdf; tests try a handful of distributions.", "anchors": ["preliz/internal/optimization.py: find_ppf, _ppf_single", "preliz/distributions/mixture.py: Mixture.ppf"]}
{"id": "C49", "title": "Matching a distribution to a source leaves fixed parameters alone", "statement": "match_moments and match_quantiles reject an incomplete source distribution, and quantiles outside (0, 1), before touching the target distribution; and whatever the optimiser tries, every parameter of the target that was fixed beforehand keeps its value (a nan quantile is accepted: exhibited).", "quantifier": "all sources, all target objects and subsets of fixed parameters, all optimiser behaviours, all quantile lists", "why_tests_cant": "The optimiser may try any vectors, and any subset of parameters may be fixed; tests run one optimiser on a few cases.", "anchors": ["preliz/unidimensional/matching.py:match_moments", "preliz/unidimensional/matching.py:match_quantiles", "preliz/internal/optimization.py:optimize_moments", "preliz/internal/optimization.py:optimize_quantiles"]}
{"id": "C50", "title": "Density contours enclose the requested share", "statement": "For each requested probability p, the contour level of the joint density plot is the density of one of the grid cells; the cells of higher density hold at most the share p of the total, and lowering the level to any smaller density that occurs would exceed it. Larger probabilities give lower levels, and levels are returned in ascending order.", "quantifier": "all non-negative density grids of any size, all probabilities", "why_tests_cant": "Grids are unbounded in size and may contain ties; tests look at a few densities.", "anchors": ["preliz/internal/plot_helper_multivariate.py: find_hdi_contours"]}
{"id": "C51", "title": "Closed-form maximum likelihood fits maximise the likelihood", "statement": "For the families fitted in closed form (Normal, LogNormal, LogitNormal, HalfNormal, Exponential, Poisson, Geometric, Uniform, DiscreteUniform, Laplace), no admissible parameter gives the sample a higher likelihood, under the textbook density, than the parameters the maximum likelihood fit installs; a constant sample gives a zero scale (exhibited).", "quantifier": "all samples of any size in the support, all competing parameter values", "why_tests_cant": "The claim compares with every real parameter value and every sample; tests try a few samples and accept a tolerance.", "anchors": ["preliz/distributions/*.py: _fit_mle", "preliz/internal/special.py: mean_and_std"]}
{"id": "C52", "title": "Closed-form sample fits reproduce the sample statistics they are built from", "statement": "Fitting a Triangular gives the sample's extremes and mean; fitting a Binomial gives an integer number of trials and the sample's mean; fitting an ExGaussian gives the sample's mean, standard deviation and skewness when the skewness is in [0.0001, 2]; fitting a VonMises gives a location in [-pi, pi) congruent to the circular mean. The triangular mode can fall outside the ends, the binomial probability can exceed one and the ExGaussian fit can be nan (exhibited).", "quantifier": "all samples of any size", "why_tests_cant": "Algebraic identities over all samples; tests check a few seeds with wide tolerances.", "anchors": ["preliz/distributions/triangular.py: _fit_mle", "preliz/distributions/binomial.py: nb_fit_mle", "preliz/distributions/exgaussian.py: _fit_mle", "preliz/distributions/vonmises.py: _fit_mle"]}
{"id": "C53", "title": "Parameter bounds keep searches inside the documented domain", "statement": "Every family publishes one pair of bounds per reported parameter. A numerical fit confined to these bounds tries and installs only documented parameter values, and the bounds cut off no documented value that has a little room around it; the sets for which this fails are named exactly (order of lower and upper, an unknown population size, Beta by mean and sd, NegativeBinomial by p and n; negative log-odds of a Bernoulli). The numerical maximum likelihood fit leaves the object frozen with exactly the vector the optimiser returned as canonical parameters. Starting points lie inside the bounds except for the guesses exhibited. In an alternative parametrization of Beta or AsymmetricLaplace the wrong bounds are applied (exhibited).", "quantifier": "all families, all parametrizations, all candidate vectors, all optimisers that honour bounds, all histories of candidates tried", "why_tests_cant": "The optimiser chooses the candidates; a test sees the path of one run on one sample.", "anchors": ["preliz/distributions/*.py: params_support, _fit_mle", "preliz/internal/optimization.py: optimize_ml, optimize_mean_sigma", "preliz/internal/distribution_helper.py: init_vals"]}
{"id": "C54", "title": "Catalogue queries return exactly what they describe", "statement": "find returns, each once, exactly the univariate families of the requested kind, number of parameters and support type. get raises ValueError for a wrong output or category, lists the same families as names and as instances, and fails exactly when a listed name is not a distribution. Members of a category have the support the documentation gives for it, for all finite parameters. Exceptions are exhibited: unknown filters are ignored, the bounded filter misses families whose bounds are parameters, five categories list names that do not exist, the documented category non_negative does not exist, LogitNormal and Geometric are in categories they do not belong to. info gives, for every family, the name, the kind whose list the family is in and what info of an instance without parameters gives; it knows exactly the names of the classes that are not modifiers. Exceptions: modifiers (TypeError), three names of its own groups (AttributeError), and Categorical, whose parameter names are one text.", "quantifier": "all filters, all categories (any string), all members, all finite parameters, all names", "why_tests_cant": "Filters take arbitrary strings and numbers and the claim about supports ranges over every parameter value of every member.", "anchors": ["preliz/distributions/catalog.py: get, find, _matches_support, _GROUPS", "preliz/distributions/__init__.py: all_continuous, all_discrete", "preliz/distributions/catalog.py:319-345 info"]}
{"id": "C55", "title": "Descriptions of an instance agree with the instance", "statement": "After any history of construction and updates, params_dict pairs each current parameter name with the attribute of that name, and exists exactly for instances with parameters. info never raises, reports the same names and parameters, and reports under each parametrization the attributes of the instance; reported parametrizations are exactly the accepted ones. Bounds are shown exactly, except that a nonzero value below 1e-10 is shown as 0 (exhibited), and four families accept alternatives they do not report (exhibited).", "quantifier": "all families, all constructor arguments, all histories of updates", "why_tests_cant": "The agreement must survive every sequence of updates in every parametrization.", "anchors": ["preliz/distributions/distributions.py: params_dict, info, _format_support_value", "preliz/distributions/*.py: parametrizations"]}
{"id": "C56", "title": "All methods of an instance describe one law", "statement": "Every method of a univariate family (pdf, cdf, ppf, logpdf, entropy, moments, L-moments, survival variants, rvs) asks the numerical library for that very quantity, of the family's own law, with the query point first and all current parameters in the library's order; nothing is swapped, dropped or taken from another family. Two instances whose canonical parameters are equal answer every query alike, whatever their histories and parametrizations. Inherited methods are the complement, logarithm and mirrored quantile of the family's own; the density of zero-inflated families is zero outside the support.", "quantifier": "all 44 univariate families, all methods, all instances reachable by construction and updates, all query points, any numerical library", "why_tests_cant": "There are more than 700 hand-written argument lists; numerical tests compare some of them at a few points, where swapped or stale arguments can agree.", "anchors": ["preliz/distributions/*.py: pdf, cdf, ppf, logpdf, entropy, mean, median, mode, var, std, skewness, kurtosis, lmoment1-4, rvs, ptd_*", "preliz/distributions/distributions.py: logcdf, sf, logsf, isf, Continuous.mode"]}
{"id": "C57", "title": "Every new prior is fitted to the sample of its own variable", "statement": "posterior_to_prior and the back-fitting step of ppe give each variable a prior that is the best fit, among the distributions offered for that variable, to the sample of that very variable, as read after the whole call; vector variables get element by element the fit of their own column; no other object of the user is modified. The properties fail when the same alternative object is offered to several variables (a list as new_families), for new_families='auto' in ppe, and for matrix-valued variables in ppe.", "quantifier": "all models (any number of variables, families and sizes), all samples, all ways of passing new_families, all heaps of distribution objects and all fitting routines", "why_tests_cant": "Fits update objects in place, so whether a result survives depends on which objects are shared and on the order of the variables; tests look at one model and one sample and never at aliasing.", "anchors": ["preliz/ppls/agnostic.py: posterior_to_prior, back_fitting_idata", "preliz/ppls/pymc_io.py: extract_preliz_distributions, set_families, back_fitting_pymc", "preliz/unidimensional/mle.py: mle", "preliz/internal/optimization.py: fit_to_sample"]}
{"id": "C58", "title": "ppe projects in order and leaves the user's model as it found it", "statement": "The projection of ppe has one row per iteration; each row is the result of minimising for one data set drawn from the target, started at the previous result, and only the first result is dropped. A weighted target gives, at each position, the value drawn for that position by the chosen component. When ppe returns, the values of all variables in the user's PyMC model are what they were; when compiling or minimising raises, the observed variable has lost its data. random_state has no influence for a single target. Log levels are restored also after exceptions.", "quantifier": "all targets, iteration counts, starting points, minimisers, generators, models, and every point at which a step may raise", "why_tests_cant": "The model is restored by a plain statement after the optimisation; a test of successful runs cannot see what an exception or interruption at an arbitrary point leaves behind.", "anchors": ["preliz/predictive/ppe.py: ppe", "preliz/ppls/pymc_io.py: compile_mllk", "preliz/internal/optimization.py: optimize_pymc_model, get_weighted_rvs", "preliz/ppls/agnostic.py: get_engine, disable_pymc_sampling_logs"]}
{"id": "C59", "title": "Conversions from and to PyMC keep the distribution", "statement": "Passing a PyMC variable or a Prior to PreliZ yields the distribution of the same family with the same canonical parameters; parameters given as nan are open and nothing else is set. Censored, truncated, zero-inflated, hurdle and mixture variables become the corresponding modifier of the converted base, with the same bounds, weights and psi, in order; to_pymc passes the weights of a mixture divided by their sum. Prior keywords are exactly the constructor keywords and an unknown one is an error. Conversely to_pymc calls the PyMC class of the same name with every current parameter under its own name, the same way inside and outside of a model, and converting the result back gives the same distribution; to_bambi names the same class and parameters. Exceptions in the code, each exhibited by a theorem: families whose PyMC inputs mix two parameters lose a known one; a truncated HalfNormal and a hurdle of a truncated base raise; nested modifiers convert outside of a model but not inside; the bambi prior of a modified distribution does not name the base, cannot be read back, and modifier parameters overwrite base parameters of the same name; in that of a mixture only the last component of a family is left; a PyMC mixture whose components are known and whose weights are not is refused. A bound given to PyMC as an array of one number, of any dimension, is read as that number; bounds that differ from entry to entry raise ValueError.", "quantifier": "all convertible families, all values of their parameters including open ones, all modifiers of them, all histories of updates before the conversion", "why_tests_cant": "the test-suite converts one variable per family with fixed numbers; which parameters survive depends on which of them are open and on the nesting of modifiers", "anchors": ["preliz/ppls/pymc_io.py: from_pymc, from_prior, _reparametrize, _nan_to_none", "preliz/distributions/distributions.py: to_pymc, to_bambi, params_dict"]}
{"id": "C60", "title": "Highest density intervals and summaries", "statement": "hdi returns an interval that holds the requested probability. For a continuous distribution it is never wider than the equal-tailed interval of the same mass, it is the shortest interval with that mass when the minimiser finds a minimum, and then no point outside it is denser than a point inside when the density has one mode. For a discrete distribution it consists of whole numbers, holds at least the mass, and is the shortest such interval when the probabilities have one peak. summary reports the formatted mean, median and standard deviation with exactly the interval that eti, hdi or ppf returns for the same arguments. Exceptions in the code, each exhibited by a theorem: for censored distributions the masses at both bounds are counted always; the equality constraint of a discrete distribution need not have a solution; an unknown kind of interval fails without a message.", "quantifier": "every lawful distribution, mass, number format, every minimiser that does not make its start worse, and every order of equally probable values", "why_tests_cant": "The interval is the result of an opaque numerical search over all real intervals, and the claim compares it with every other interval.", "anchors": ["preliz/internal/optimization.py:find_hdi", "preliz/internal/optimization.py:continuous_hdi", "preliz/internal/optimization.py:discrete_hdi", "preliz/distributions/distributions.py:Distribution.hdi", "preliz/distributions/distributions.py:Distribution.summary"]}
{"id": "C61", "title": "Derived statistics of truncated, hurdle, censored and mixture distributions", "statement": "mean(), var(), std(), skewness(), kurtosis(), median(), mode() and entropy() of a truncated, hurdle or mixture distribution are those of the law described by its cdf: exactly for discrete distributions with at most 201 values, up to the error of the trapezoid rule on 1000 points for continuous ones. For censored discrete distributions the entropy is that of the clipped variable plus two terms that depend on the probabilities at and beyond the bounds. (Findings record where this fails: supports with more than 201 values, hurdles over bases that start above 0, continuous hurdles, values of probability zero, censored entropy and kurtosis.)", "quantifier": "every base distribution obeying its law, all bounds, hurdle probabilities, weights, integrands and supports", "why_tests_cant": "The existing tests compare a few statistics of a few bases with sampled values and generous tolerances; agreement for every base law and every support needs a proof over arbitrary laws.", "anchors": ["preliz/internal/distribution_helper.py: num_skewness, num_kurtosis", "preliz/distributions/truncated.py: mean, mode, median, var, std, skewness, kurtosis, entropy", "preliz/distributions/hurdle.py: mean, mode, var, skewness, kurtosis, entropy", "preliz/distributions/censored.py: kurtosis, entropy", "preliz/distributions/mixture.py: entropy, std, skewness, kurtosis"]}
{"id": "C62", "title": "What ppa and predictive_explorer read in a model function", "statement": "For every model function made of lines that assign one distribution each, other lines and comments, ppa reads the returned names and the family of every prior, whatever is in the comments; predictive_explorer shows for every parameter the limits of the distribution argument where it is used, corrected for the function applied to it so that the function respects the limits; and the i-th prediction and the i-th prior values always come from the same run of the function, also after a selection. Recorded exceptions: BetaScaled and BetaBinomial are read as Beta, modifiers and bambi priors raise, a 'return' in a comment is taken for the return, repeated or unreturned names, keyword arguments out of order, nested calls, and limits of probabilities.", "quantifier": "all source texts of that form (any number of lines, any arguments with parentheses at most one inside another, any comments), all parameter lists, all numbers of runs and selections", "why_tests_cant": "the source text is read with regular expressions; tests try a few functions, the property is about every text and every order of the names in the pattern", "anchors": ["preliz/ppls/agnostic.py: inspect_source, parse_function_for_pred_textboxes, parse_arguments, get_prior_pp_samples, from_preliz, match_preliz_dist", "preliz/ppls/bambi_io.py: from_bambi, match_preliz_dist, match_return_variables, dist_as_str, dict_model", "preliz/internal/plot_helper.py: get_textboxes", "preliz/internal/predictive_helper.py: select_prior_samples", "preliz/predictive/predictive_explorer.py", "preliz/predictive/ppa.py"]}
{"id": "C63", "title": "Each redraw of the predictive explorer shows the draws and settings of that moment", "statement": "Every time a widget of predictive_explorer changes, the panel shows one curve or histogram for each draw of the model that holds no NaN, one for all of them together, the references asked for and the chosen axis limits; it depends on the current draws and widget values only, not on what was drawn earlier in the session, and never fails because of it. Integer-valued draws get one bin per integer. Exceptions in the code, each exhibited by a theorem: the empirical curve stops at 1 - 1/n; a histogram followed by a line plot draws nothing, the reverse ends the session; bins and user style are kept from or lost after the first histogram; a nan among the draws breaks the histogram; the prior of a scalar cannot be shown as a histogram and the default variable of the prior is the observed one; stats_kwargs is modified.", "quantifier": "every sequence of redraws, kinds of plot, draws (with or without NaN, integer or real), references, numbers of iterations, user supplied stats_kwargs and variables of the prior or prior predictive group", "why_tests_cant": "The failures depend on the order of the redraws in an interactive session; a test draws one panel, or a few, in one order.", "anchors": ["preliz/ppls/agnostic.py:ppl_plot_decorator", "preliz/internal/plot_helper.py:plot_repr", "preliz/internal/plot_helper.py:plot_references", "preliz/predictive/predictive_explorer.py:predictive_explorer"]}
{"id": "C64", "title": "Array parameters are drawn combination by combination, and refused elsewhere", "statement": "plot_pdf of a distribution whose parameters are arrays draws one curve for each combination the arrays broadcast to, in order, the i-th being that of the distribution with the i-th values, with the keywords the user passed, and leaves the distribution as it was. Shapes that do not broadcast are rejected. The methods that need numbers (summary, eti, hdi, the other plots) refuse an undefined or array-valued distribution with ValueError and accept every other. mle draws the fitted ones among the best and passes on plot_kwargs. Exceptions in the code, each exhibited by a theorem: drawing a modifier of an array-valued base changes the base; keywords given to discrete curves apply to the first only; numpy scalars are refused by the other methods; plot_kwargs of mle is taken for the moments.", "quantifier": "every list of parameters and shapes, every dictionary of keywords, every modifier and its base distribution, every ranking of candidates", "why_tests_cant": "Tests draw two or three distributions with scalar parameters and look at no object afterwards; the shapes, the sharing of a base distribution and the keywords are unbounded.", "anchors": ["preliz/internal/distribution_helper.py: valid_scalar_params", "preliz/distributions/distributions.py: plot_pdf, _unpack_distribution, moments", "preliz/internal/plot_helper.py: plot_pdfpmf, set_label, get_moments", "preliz/unidimensional/mle.py: mle"]}
{"id": "C65", "title": "Point intervals show the median and the intervals", "statement": "Under a distribution or a sample, the dot is the median, the thick line the interval of the first level, and the thin line that of the second (for quantiles: the pairs of the list from outside in). An interval that wraps around the circle covers exactly the arc. A wrong number of levels is rejected, and what is left out comes from the settings. Exceptions in the code, each exhibited by a theorem: an interval that is one value is drawn as wrapping around the circle; with quantiles the dot is the middle level, which need not be the median.", "quantifier": "every distribution or sample (given by its quantiles, intervals and median), every kind of interval and list of levels", "why_tests_cant": "Which lines are drawn depends on the ends of the intervals, which range over all reals, and on the length of the list.", "anchors": ["preliz/internal/plot_helper.py: plot_pointinterval, _plot_sub_iterval"]}
{"id": "C66", "title": "Sliders start at the parameters and keep to their limits", "statement": "plot_interactive of a defined univariate distribution makes one slider for each parameter, which stands at the value of the parameter, offers nothing outside the limits of the parameter and enough around the value; of an undefined one it starts from default values. Array parameters are refused. Exceptions in the code, each exhibited by a theorem: a parameter equal to 0 gets -10..10 whatever its limits; an infinite parameter makes the method fail; the slider of n of a Binomial offers 0; an undefined Hurdle has no defaults.", "quantifier": "every finite or infinite value and every pair of limits, every rounding within half a unit, every family", "why_tests_cant": "The range is computed from the order of magnitude of the value; all magnitudes and all limits have to work.", "anchors": ["preliz/internal/plot_helper.py: get_slider, generate_range", "preliz/distributions/distributions.py: plot_interactive", "preliz/internal/distribution_helper.py: init_vals"]}
{"id": "C67", "title": "A Categorical is the distribution it is given", "statement": "A Categorical made from p has those probabilities, one made from logit_p reports those log odds and has probabilities that add up to 1; giving both is rejected; what it was before does not matter. In the interactive plot the sliders show distributions only. pdf, cdf, quantiles, mean and the like are those of the law given by the probabilities, whichever of p or logit_p they came from. Exceptions in the code, each exhibited by a theorem: log odds give probabilities that do not add up to 1; no single slider leads from one distribution to another; a Categorical given by log odds cannot be explored; a Categorical cannot be fitted to a sample.", "quantifier": "every list of probabilities or log odds, every state before the call, every position of the sliders", "why_tests_cant": "Whether the numbers add up to 1 is a question about all vectors and all positions of the sliders.", "anchors": ["preliz/distributions/categorical.py: Categorical", "preliz/distributions/distributions.py: plot_interactive"]}
{"id": "C68", "title": "QuartileInt shows the fit for what its boxes say", "statement": "Whatever a user does with the boxes of QuartileInt, the distribution in the attribute and in the figure is the best fit to the quartiles shown among the names selected, with the parameters fixed in the text box, in the representation chosen, or nothing if the quartiles do not increase. Names are turned into new distributions in order. A fit that fails leaves the last result. Exceptions in the code, each exhibited by a theorem: editing the params box does not refit.", "quantifier": "every history of edits, selections and mouse events, every fitting routine and every list of names", "why_tests_cant": "The result depends on the order of the edits; tests cannot operate the widgets through every history.", "anchors": ["preliz/unidimensional/quartile_int.py: QuartileInt", "preliz/internal/distribution_helper.py: get_distributions"]}
{"id": "C69", "title": "Roulette elicits from the chips and limits it shows", "statement": "Whatever a user does with the controls of Roulette, the limits and the grid are those in the boxes, a changed limit or dimension empties the grid, releasing the mouse reports the inputs and the best fit for the chips shown among the selected names, the check boxes select the families of their kind, None excludes the others, and the picture is that of the result. Exceptions in the code, each exhibited by a theorem: a change of the grid leaves the result of the chips that were wiped out; with nothing selected the picture stays; while None is ticked no other box can be ticked; dimensions beyond the boxes are used; the upper limit may equal the lower one.", "quantifier": "every history of clicks, edits of boxes, ticks and selections, every fitting routine, grid and limits", "why_tests_cant": "The controls update one another; only all histories settle that the picture, the grid and the result agree.", "anchors": ["preliz/unidimensional/roulette.py: Roulette", "preliz/internal/distribution_helper.py: get_distributions"]}
{"id": "C70", "title": "ppa returns priors fitted to the selected draws", "statement": "The button of ppa returns, for each prior of the model and in order, the maximum likelihood fit of its own family to the draws of that very variable among the selected predictions, and, if new families are asked for, a best fit to the same draws among the family of the prior and two common families of its kind. With too few predictions selected the user is told and no prior changes; if a prior cannot be fitted nothing is returned. Exceptions in the code, each exhibited by a theorem: a Categorical prior makes the answer impossible.", "quantifier": "every model, selection, set of draws and fitting routine", "why_tests_cant": "Which draw belongs to which variable, and which family wins, has to hold for all models and selections.", "anchors": ["preliz/predictive/ppa.py: on_return_prior", "preliz/internal/predictive_helper.py: back_fitting_ppa, select", "preliz/unidimensional/mle.py: mle"]}
{"id": "C71", "title": "What is printed for a distribution can be read back", "statement": "A defined distribution is printed as Name(param=value, ...) with all its parameters in order, an undefined one by its name, and printing never fails. Two distributions that print alike have the same name and the same parameters to the digits shown. The text can be pasted into the box that fixes parameters and is what the PyMC and Bambi code is built from. Modifiers and mixtures show what they are made of. The HTML table has the kind, the support, and the mean and deviation if they exist. The catalog lists every class once, in its group. Exceptions in the code, each exhibited by a theorem: a Hurdle without psi cannot be shown; the base of a modifier of a modifier is not shown; a truncated Normal and the family TruncatedNormal share a name.", "quantifier": "every distribution, list of parameters (numbers and arrays), nesting of modifiers and mixtures, and every way of writing numbers without the marks , = [ ] ( ) and blanks", "why_tests_cant": "Unambiguity of a text format is a statement about all pairs of distributions.", "anchors": ["preliz/distributions/distributions.py: Distribution.__repr__, _get_name, _get_description, _repr_html_", "preliz/distributions/distributions_multivariate.py: Multivariate.__repr__", "preliz/distributions/catalog.py: __repr__, _repr_html_", "preliz/internal/distribution_helper.py: process_extra"]}
{"id": "C72", "title": "plot draws the function asked for, with the values given", "statement": "plot(dist, kind) calls the method of that kind, with every parameter as given or by its documented default, ignores what does not apply, and passes other keywords to matplotlib; other kinds are a ValueError. It does what the method itself does. For multivariate distributions every marginal is drawn in its own panel, in order, with the options given, no empty panels remain, the title is there when asked for, and the limits are those given or cover the marginals. The joint density is drawn where it is supported, other dimensions are a ValueError. Exceptions in the code, each exhibited by a theorem: matplotlib keywords are refused for multivariate distributions; plot has other defaults than plot_pdf; given axes the title makes it fail; one-dimensional marginals cannot be drawn without axes; in the interactive plot only the last panel is sure to be in view.", "quantifier": "every dictionary of keywords, every kind, every number of dimensions, axes and limits", "why_tests_cant": "The keywords form an unbounded dictionary, and dimensions are unbounded; tests try three.", "anchors": ["preliz/distributions/plot.py: plot", "preliz/distributions/continuous_multivariate.py: plot_pdf, plot_cdf, plot_ppf, plot_sf, plot_isf", "preliz/internal/plot_helper_multivariate.py: plot_dirichlet, plot_mvnormal, get_cols_rows"]}
{"id": "C73", "title": "mle estimates every parameter from the sample, by the largest likelihood", "statement": "Values given for parameters of a candidate do not change what mle fits: every parameter is estimated from the sample. The fitted distribution has at least the likelihood of every other one of its family, and of the fit to the sample's mean and deviation. A candidate can be fitted to any sample within its support, and again to another sample. A sample with several rows gives one value of each parameter per row, in order, and the sum of the losses. Where the starting point is found by matching the moments of the sample, the parameters returned by that search are allowed and no allowed ones are closer, if the optimiser finds the least value. For VonMises mu and kappa are those of the circular moments. Exceptions in the code, each exhibited by a theorem: ten families cannot be fitted again once all parameters have values; SkewNormal with a sample skewness beyond one; fitted bounds are kept at a second fit; counts stay at the default.", "quantifier": "every univariate family, sample, number of rows, given values, history of previous fits, and every optimiser that keeps to its bounds", "why_tests_cant": "The claim compares the result with all other parameter vectors and all given values; tests recover the parameters of a few simulated samples.", "anchors": ["preliz/unidimensional/mle.py: mle", "preliz/internal/optimization.py: optimize_ml, optimize_mean_sigma, fit_to_sample, find_kappa, update_bounds_beta_scaled", "preliz/distributions/*.py: _fit_mle, _fit_moments"]}
{"id": "C74", "title": "Warnings say exactly when a fit misses the request", "statement": "maxent warns when the fitted distribution does not have the requested mass between the bounds (to 0.01 per cent) and when the bounds of a discrete distribution are not integers, and otherwise is silent. quartile warns when the quartiles are missed. match_moments and match_quantiles list exactly the moments or quantiles that are missed (by more than 0.01 and 0.1 per cent), each with its label, target and value. mle warns exactly when no candidate could be fitted to the sample. Exceptions in the code, each exhibited by a theorem: numpy integers are reported as not integer; a mass that is nan, a bound that is not an integer, shifted quartiles and infinite targets pass without a warning; discrete quartiles and targets of zero are reported although met; a repeated letter raises; one defined candidate silences mle.", "quantifier": "every fitted distribution, every pair of bounds of any Python or numpy number type, every mass, every list of targets and fitted values, every list of candidates and sample", "why_tests_cant": "Silence is a claim about every fit that is accepted; tests only trigger a warning or two.", "anchors": ["preliz/unidimensional/maxent.py: maxent, end_points_ints, is_integer_num", "preliz/unidimensional/quartile.py: quartile", "preliz/unidimensional/matching.py: _check_relative_error", "preliz/unidimensional/mle.py: mle", "preliz/internal/optimization.py: relative_error"]}
{"id": "C75", "title": "Parameters fixed in the params box are honoured and the best fit is returned", "statement": "When Roulette, combine_roulette or QuartileInt fit the selected distributions, each one is fitted on its own with the parameters the user fixed for its class kept, an entry for a class that is not selected has no effect, and the distribution returned is the first with the smallest loss (never one whose loss is nan or infinite). A parameter name a class does not have is an error in QuartileInt and makes Roulette ignore the entry. Exceptions in the code, each exhibited by a theorem: BetaScaled: Roulette ignores fixed values unless both shapes are given and always uses the grid as bounds; QuartileInt needs both bounds and ignores a single shape.", "quantifier": "every list of candidates, every text of fixed parameters, every grid or quartiles, every behaviour of the optimiser that returns one finite value per free parameter", "why_tests_cant": "Tests try one text with one selection; which parameters survive depends on the class, on which are given together and on the whole run of the optimiser.", "anchors": ["preliz/internal/optimization.py:fit_to_epdf", "preliz/internal/optimization.py:fit_to_quartile", "preliz/internal/optimization.py:update_bounds_beta_scaled", "preliz/unidimensional/roulette.py:Roulette", "preliz/unidimensional/quartile_int.py:QuartileInt"]}
{"id": "C76", "title": "What the plots of a distribution show is the distribution", "statement": "For every univariate distribution and every support, plot_cdf and plot_sf of a discrete distribution with at most 201 values between the ends of the plot draw a step line whose height at every number, whole or not, from one below the lower end to two above the upper end is the cdf (sf) there; with more values the line of a cdf that increases at each of them is too low at some whole number inside the plot. For a continuous distribution the cdf, sf and pdf curves go through 1000 equally spaced points of the graph from one end of the plot to the other; the ppf curve goes through the multiples of 1/999 and the isf curve has the same heights in the opposite order. For a discrete distribution plot_pdf has exactly one dot per whole number at its mass and the dotted line stays between the smallest and the largest mass. A continuous Censored distribution gets its two marks both or neither: none by default unless more than one in ten thousand is censored below, however much is censored above, and the height of a mark is not a probability. The panel of Roulette and QuartileInt adds a dot at each finite end of the support; a kind of plot it does not know draws nothing.", "quantifier": "all distributions (kind, cdf, ppf, pdf, support), all supports of the plot (names or pairs), all numbers at which the height of the line is read, all censoring bounds", "why_tests_cant": "a test compares a picture or a few points; the claim is about the height at every abscissa for every distribution, and about distributions with arbitrarily many values", "anchors": ["preliz/internal/plot_helper.py:plot_pdfpmf", "preliz/internal/plot_helper.py:plot_cdf", "preliz/internal/plot_helper.py:plot_sf", "preliz/internal/plot_helper.py:plot_ppf", "preliz/internal/plot_helper.py:plot_isf", "preliz/internal/plot_helper.py:representations", "preliz/distributions/distributions.py:Distribution"]}
{"id": "C77", "title": "The plots of MvNormal and Dirichlet show every marginal", "statement": "For every Dirichlet and MvNormal with two components or more, each of plot_pdf, plot_cdf, plot_ppf, plot_sf and plot_isf called without axes draws one panel per component, in order, with what the same plot of that marginal draws. With axes given: the default legend ends the call with an exception after drawing, and with fewer axes than components the last components are left out silently; a single component cannot be plotted. The joint plot exists for three components of a Dirichlet and two of an MvNormal only, covers three standard deviations each way in steps of 0.01, draws increasing levels, and is an exception if a standard deviation is at most 1/600 or if two of the three levels of a Dirichlet coincide and the third does not. plot_interactive draws pdf and cdf of the marginals at the positions of the sliders with limits where the restricted grid is visible; its ppf is an exception for a Dirichlet, and for an MvNormal hides all quantiles below -0.075 of the quantile 0.999. Moving sliders replaces mu (alpha) and keeps the matrix that was given. xvals accepts any unknown name for a Dirichlet and no name for an MvNormal.", "quantifier": "all numbers of components, all marginals, supports, numbers of axes, legends, kinds of plot, positions of the sliders, covariance or precision matrices, densities on the mesh", "why_tests_cant": "tests draw a few two and three dimensional examples with default arguments and look for no exception; the claim is about every number of components and axes and about what each panel shows", "anchors": ["preliz/internal/plot_helper_multivariate.py:plot_dirichlet", "preliz/internal/plot_helper_multivariate.py:plot_mvnormal", "preliz/internal/plot_helper_multivariate.py:joint_normal", "preliz/internal/plot_helper_multivariate.py:DirichletOnSimplex", "preliz/distributions/continuous_multivariate.py:Dirichlet", "preliz/distributions/continuous_multivariate.py:MvNormal", "preliz/distributions/distributions_multivariate.py:Multivariate"]}
{"id": "C78", "title": "What is read from a PyMC model, and the code written for it", "statement": "For every PyMC model whose observed variables exist and whose transforms are known, reading the model yields one entry per free variable, in order, under the name of the variable, with its shape, the product of the shape as size, its backward transform, and exactly the indices of the free variables it depends on, each once, whatever constants and intermediate operations lie between; the number of draws is that of the first observed variable. For every model with two levels the code written for it has one line per variable without parents, in order, with its own fitted distribution, or with the one refitted from the last of its children. A model in which a hierarchical variable depends on another one ends with an IndexError.", "quantifier": "all graphs of constants, intermediate results and random variables, of any depth and size; all fitted distributions and results of refitting", "why_tests_cant": "tests read a handful of models with at most two variables; the claim is about every graph, depth and number of variables", "anchors": ["preliz/ppls/pymc_io.py:retrieve_variable_info", "preliz/ppls/pymc_io.py:non_constant_parents", "preliz/ppls/pymc_io.py:write_pymc_string", "preliz/ppls/bambi_io.py:get_pymc_model", "preliz/ppls/agnostic.py:posterior_to_prior"]}
{"id": "C79", "title": "The text of the settings can be saved and read back as a settings file", "statement": "For every state of the settings reachable through the API, print(rcParams) shows one line per setting in alphabetical order with the value in it, and a file with that text read as an rc file yields the same settings. Reading a known setting always yields a valid value, reading any other is a KeyError, and len is the number of settings. Building the mapping from given items yields valid values of just these keys or fails with the error of the first item that is refused. A setting that is a sequence is accepted exactly if it has the required length and every entry is accepted, sets are refused, and a sequence written as text, with any brackets and blanks around its entries, is validated as the sequence itself. Exceptions: () and [] and a tuple of one entry as Python writes them.", "quantifier": "all reachable states of the settings, all valid probabilities whose text Python reads back, all keys, all lists of items", "why_tests_cant": "tests compare the text of the default settings only; the claim is about every reachable state and about the file reader", "anchors": ["preliz/internal/rcparams.py:RcParams.__init__", "preliz/internal/rcparams.py:RcParams.__getitem__", "preliz/internal/rcparams.py:RcParams.__len__", "preliz/internal/rcparams.py:RcParams.__str__", "preliz/internal/rcparams.py:read_rcfile", "preliz/internal/rcparams.py:77-95 make_iterable_validator"]}
{"id": "C80", "title": "Samples of modified distributions follow their law", "statement": "If the samples of a base distribution are those that uniforms in (0, 1) yield by inversion, then for every number of samples: those of Truncated follow the law conditioned on the interval, those of Censored that of the clipped variable, those of Hurdle that with the probability of zero replaced, and those of Mixture split among the components, each part following the law of its component, with none lost. Following means that for every value the number of samples up to it is the number of uniforms up to the law at it.", "quantifier": "all lawful bases, bounds, psi, weights chosen, numbers of samples and uniforms", "why_tests_cant": "tests compare means and variances of large samples with tolerances; the claim is exact and for every sample", "anchors": ["preliz/distributions/truncated.py:Truncated.rvs", "preliz/distributions/censored.py:Censored.rvs", "preliz/distributions/hurdle.py:Hurdle.rvs", "preliz/distributions/mixture.py:Mixture.rvs"]}
{"id": "C81", "title": "citations returns the entries of what is cited, complete and unchanged", "statement": "For every bibliography of entries with distinct keys, citations(\"all\") returns every entry, complete and once; citations() the two entries for PreliZ; citations of a list of methods exactly the entries their docstrings cite (:cite:t:, :cite:p:, :footcite:t: or :footcite:p:), each once, or an AttributeError if one is not in the bibliography. The order of the entries is not specified. With a path the same text is written to the file instead. Any format other than bibtex is a ValueError, a method without a docstring or not in a list a TypeError. The name of a method as a string is not accepted as documented: the answer is empty. The file that is shipped is such a bibliography.", "quantifier": "all bibliographies, all docstrings, all lists of methods, all orders of a Python set, all paths and formats", "why_tests_cant": "a test looks at one docstring and the shipped file in the order of one process; the claim is about every text and every order", "anchors": ["preliz/internal/citations.py:citations", "preliz/internal/citations.py:_citation_bibtex", "preliz/internal/reference.bib"]}
{"id": "C82", "title": "The prior predictive assistant shows what it says", "statement": "Throughout a session of ppa, the j-th panel shows the j-th sample of the current batch, in the kind of plot last chosen and with the current references, and there is a panel for every sample of the batch, so that nothing is counted as shown without being drawn. With the common range all panels have the same whole-number limits, which hold every drawn sample and are as tight as rounding allows; without it each panel has its own. The panel of the accepted samples puts together exactly the accepted samples, or all samples when none is accepted, in the same kind and with the same references. Clicking a panel and asking for more accepts the sample that panel shows. The exceptions are stated: after the new prior has been shown a request draws only the first sample of its batch, accepting only sample zero shows all samples, references that cannot be read back from their text vanish at the first change, and a session without any sample within the boundaries raises ValueError.", "quantifier": "every sequence of clicks, requests, changes of kind, common range and reference text; every number of samples, order of neighbours and boundaries; with and without a target", "why_tests_cant": "The number of panels is fixed by the first batch and later batches depend on the clicks: only an invariant over all sessions says that every batch finds room and every panel is current", "anchors": ["preliz/internal/plot_helper.py:551-655 plot_pp_samples, plot_pp_mean", "preliz/predictive/ppa.py:71-146 ppa (widgets, kind_, click)", "preliz/predictive/ppa.py:177-197 FilterDistribution.__call__", "preliz/predictive/ppa.py:353-404 carry_on, on_return_prior"]}
{"id": "C83", "title": "Plots go where they should and say what they show", "statement": "A plot of a univariate distribution is drawn on the axes given, else on the current axes of the active figure, else on a new figure of the size asked for, and changes nothing elsewhere. Any sequence of plots on the same axes leaves their curves in order, each with its own label: none for legend=None or \"title\", the caller's text, or the name of the distribution followed by each requested moment once, in order of first mention. The title is that of the last plot with legend=\"title\"; the legend box is that of the last plot with another string and lists all curves up to it. Parameters that are arrays are drawn row by row on the same axes. A plot that raises leaves other axes, figures and the box as they were, and the curve is there exactly if only the point interval failed. The notice of the interactive tools is one line with the message, printed exactly outside IPython or when a widget is needed and the backend is none. The exceptions are stated: letters documented as ignored raise, figsize is ignored while there are axes, legend=True makes no box, a failed first plot leaves an empty figure, the notice stops nothing, does not name the two classes, and is silent in an IPython terminal.", "quantifier": "all sequences of plots, states of pyplot, arguments legend, moments, figsize and ax, failures while computing the curve or the interval; all shells, backends and tracebacks", "why_tests_cant": "What a legend lists depends on every plot drawn before on the same axes; tests draw one plot on fresh axes", "anchors": ["preliz/internal/plot_helper.py:297-331 get_ax, side_legend, get_moments", "preliz/internal/plot_helper.py:718-733 set_label", "preliz/internal/plot_helper.py:128-294 plot_pdfpmf, plot_cdf, plot_ppf, plot_sf, plot_isf", "preliz/internal/plot_helper.py:658-678 check_inside_notebook", "preliz/distributions/distributions.py:711-743 plot_pdf"]}
{"id": "C84", "title": "The predictive explorer always shows the drawing for what its widgets hold", "statement": "For a function whose lines each assign one distribution and whose parameters all appear as arguments, the explorer shows one box per parameter, in order, labelled with its name and with the nearest whole numbers to the limits of the argument it is used as. A parameter with a number as default starts there; the others start at the value the distribution starts from, which is within its limits, in a box for whole numbers exactly if they are counts. Whatever is then typed or clicked, in whatever order, the panel shows the drawing for what the widgets hold: the function gets every parameter by name and nothing else, each the last number typed in its box or its starting value; an axis has the last limits typed while its check box is ticked and automatic limits otherwise; the kind of plot is the last one chosen. It is drawn again exactly when the value of a widget changes. The exceptions are stated: a parameter of a Categorical or Dirichlet without default stops the explorer, and so does a parameter that no distribution takes; a count with a default gets a box for any number, and the limits are not enforced.", "quantifier": "all such functions, defaults, engines other than bambi, and all sequences of typing and clicking", "why_tests_cant": "The starting values depend on every pairing of distribution and position, and the arguments on the whole history of the widgets, which tests cannot drive", "anchors": ["preliz/internal/plot_helper.py:373-474 get_boxes, get_textboxes", "preliz/ppls/agnostic.py:227-289 ppl_plot_decorator", "preliz/predictive/predictive_explorer.py:64-91 predictive_explorer"]}
{"id": "C85", "title": "Combining the boards of several experts counts their chips", "statement": "Whatever several people did on their Roulette boards, if their limits and grids are the same when they release the mouse, combine_roulette of their inputs fits the values of the columns with chips, each once, where the probability of a column is its share of all chips, each chip counting as much as the weight of whoever placed it; boards without chips do not count. Without weights the values, probabilities, mean and deviation are those Roulette reports for one board with all the chips stacked. If nobody placed a chip nothing is pooled and no error is raised. Exception in the code, exhibited by a theorem: experts with the same weight do not count the same unless they place the same number of chips.", "quantifier": "all numbers of experts, all sessions of each of them (clicks, releases, changes of limits, dimensions and selections in any order, with or without failures), all non-negative weights", "why_tests_cant": "The result depends on the whole history of every board; tests combine two or three fixed tuples and never the inputs of a session", "anchors": ["preliz/unidimensional/roulette.py:151-214 Roulette._on_leave_fig, _weights_to_pdf, _update_grid", "preliz/unidimensional/combine_roulette.py:7-90 combine_roulette"]}
{"id": "C86", "title": "PyMC variables and Priors may be given in the place of PreliZ distributions", "statement": "What mle, maxent, quartile, match_moments and match_quantiles return or raise depends only on the distribution meant, whether it is given as a PreliZ object, a PyMC variable or a Prior. PreliZ objects are updated in place: maxent, quartile and the matching functions return the very object they were given, mle leaves its own fit in each of them; all other objects, including the source of a match, are as they were, also after an exception. For a PyMC variable or a Prior a new object is made for each occurrence, and is the one returned. Without a distribution maxent and quartile use a new Normal. Exceptions in the code, each exhibited by a theorem: mle given PyMC variables or Priors returns their order, but the parameters found are in no object the caller has; fixed_params without a distribution raises AttributeError.", "quantifier": "all lists of arguments of any length, PreliZ objects without repetition mixed with PyMC variables and Priors; all states of the objects, all samples; conversions and fits that fail", "why_tests_cant": "Which objects change can only be seen by looking at every object there is, for every mixture of arguments; tests pass one kind of argument and look at the one returned", "anchors": ["preliz/ppls/pymc_io.py:233-239 if_pymc_get_preliz", "preliz/unidimensional/mle.py:70-99 mle", "preliz/unidimensional/maxent.py:96-175 maxent", "preliz/unidimensional/quartile.py:91-148 quartile", "preliz/unidimensional/matching.py:80-146 match_moments", "preliz/unidimensional/matching.py:215-267 match_quantiles"]}
{"id": "C87", "title": "Eliciting truncated, censored, hurdle and mixture distributions", "statement": "maxent, quartile and the matching functions accept Truncated, Censored and Hurdle distributions. The bounds or the probability psi the user gave, and every other parameter the distribution holds, are kept; the free ones take the values found, the wrapped distribution is configured with its share of them, and the support follows (Censored cuts its bounds to the support of what it wraps). A modifier all of whose wrapped parameters are given is complete and refused with ValueError; it reports the wrapped parameters followed by its own. A mixture reports the parameters of its members followed by its weights, is complete when every member and the weights are, and has the union of the supports of its members as its support; fitting it to moments fits every member and gives equal weights adding up to 1. Exceptions in the code, each exhibited by a theorem: fixed_params on a modifier always ends in ValueError, after the bounds have been reset; parameters given to a wrapped distribution that is otherwise open are not held fixed; a Hurdle without psi has no starting value and ends in TypeError; parameters given by keyword in an alternative parametrization are reported under the canonical names; fitting a mixture leaves its list of parameters and its support as they were; maxent, quartile and the matching functions always raise on a mixture and leave it as it was; mle never fits a modifier or a mixture.", "quantifier": "all wrapped objects with the behaviour proved for the univariate families (and each of those families), all three modifiers, all bounds and probabilities including infinite ones, all searches; mixtures of any number of members", "why_tests_cant": "Tests elicit one or two modifiers of the Normal with fixed bounds; which parameters are held, and what is left after a failure, has to be known for every wrapped family and every combination of given and missing parameters", "anchors": ["preliz/distributions/truncated.py:43-80,155-157 Truncated", "preliz/distributions/censored.py:46-84,217-219 Censored", "preliz/distributions/hurdle.py:50-75,172-174 Hurdle", "preliz/distributions/mixture.py:38-75,146-150 Mixture", "preliz/internal/optimization.py:517-526 get_fixed_params", "preliz/internal/optimization.py:416-450 fit_to_sample", "preliz/unidimensional/maxent.py:96-162 maxent", "preliz/unidimensional/quartile.py:91-148 quartile", "preliz/unidimensional/matching.py:80-146 match_moments"]}
{"id": "C88", "title": "Probabilities computed in double precision", "statement": "With every operation rounded to the nearest double, and a wrapped cdf that is computed as doubles in [0, 1] and does not decrease: the cdf of a truncated distribution stays in [0, 1], does not decrease, and is exactly 0 below the lower bound and exactly 1 at the upper one; its ppf asks the wrapped ppf for a probability within 1.5 units (2^-53) of the exact one, not below the mass under the lower bound, not above 1, and never decreasing. The cdf of a hurdle distribution is in [0, 1] and does not decrease on the positive side, its ppf does not decrease beyond the hurdle. The normalised weights of a mixture are in [0, 1]; its cdf is not negative, does not decrease and exceeds 1 by at most n times 2^-51, in whichever order numpy adds. sf of a cdf value in [0, 1] stays there, is within half a unit of the complement and is 0 only where cdf is 1; isf and the two probabilities of eti stay in [0, 1] and are ordered; the odds that logit takes the logarithm of are positive and do not decrease; expit stays in [0, 1]. combine draws from each distribution its share of the sample rounded down (or one less), and in total between sample_size minus the number of distributions and sample_size. Exceptions, each exhibited by a theorem: ppf(1) of a truncated uniform lies above the upper bound, the cdf of a hurdle decreases just above 0, ppf(1) of a hurdle is nan, the cdf of a mixture exceeds 1 so that sf is negative and logsf nan, a share of 29 in 100 gives 28 draws, and a constant sample does not have standard deviation 0.", "quantifier": "all double arguments, bounds, weights, probabilities and masses; every wrapped cdf and ppf with the stated behaviour; any number of components and any order of summation (error bounds: up to 2^20 components and draws)", "why_tests_cant": "Rounding depends on the last bit of every operand: a test compares a few values within a tolerance, and the exceptions show up for particular operands only", "anchors": ["preliz/distributions/truncated.py:127-139,160-163 Truncated.cdf, Truncated.ppf", "preliz/distributions/hurdle.py:123-147 Hurdle.cdf, Hurdle.ppf", "preliz/distributions/mixture.py:70-74,82-85 Mixture.cdf", "preliz/unidimensional/combine.py:67-69 combine", "preliz/distributions/distributions.py:276-304,438 sf, logsf, isf, eti", "preliz/internal/special.py:73-89,111-121 expit, logit, mean_and_std"]}
{"id": "C89", "title": "Reported parameters in double precision", "statement": "With every operation rounded to the nearest double, the parameters a distribution reports after it was given an alternative parametrization differ from the ones given by a few units (2^-53, relative): the scale of Exponential by at most 2.5 (not at all for powers of two), mu and sigma of Gamma by 6.5, phi of Wald by 2.5, mu of Beta (given with nu) by 5.5 and its standard deviation by 11.5 from that of the distribution, p of NegativeBinomial by 5.5, with n unchanged. A precision tau (Normal, HalfNormal, StudentT, HalfStudentT, LogitNormal, SkewNormal, SkewStudentT) is reported within 7.5 units of tau / (1 + tau*eps). Exceptions, each exhibited by a theorem: a scale of 49 is reported as 49.00000000000001; a precision of 2^52 is reported as half of it; Beta(2^54, 1) reports a mean of 1 and NegativeBinomial(1, 2^54) a p of 1, and neither can be built again from what it reports.", "quantifier": "all doubles between 2^-200 and 2^200 (probabilities between eps and 1 - eps) as parameters", "why_tests_cant": "Tests compare one or two conversions within a tolerance; a bound on the accumulated rounding error has to hold for every value", "anchors": ["preliz/internal/distribution_helper.py:14-21 from_precision, to_precision", "preliz/distributions/exponential.py:65-81 Exponential", "preliz/distributions/gamma.py:88-116 Gamma", "preliz/distributions/wald.py:90-114 Wald", "preliz/distributions/beta.py:101-131 Beta", "preliz/distributions/negativebinomial.py:93-118 NegativeBinomial"]}
{"id": "C90", "title": "Evaluation on lists and arrays", "statement": "Each method of a Truncated, Censored, Hurdle or Mixture distribution evaluated on a number, a Python list or a numpy array returns, in the shape of the argument and in order, the value at each number given. Exceptions, each exhibited by a theorem: the density and log-density of a Hurdle on a Python list ignore the mass at 0, and its cumulative probability raises TypeError; the quantiles of a Hurdle for integers (ppf(1), ppf([0, 1])) are truncated to integers, so an infinite one comes out finite; the quantiles of a Mixture for integers are never infinite, and an integer outside 0 and 1 raises ValueError instead of giving nan; an array of one number gives a number back from Mixture.ppf, and one quantile that is never found keeps all the others from being returned. Evaluating a Truncated distribution whose bounds are numbers leaves it unchanged; if the lower bound of a discrete one was given as a numpy array, each evaluation lowers it by one. Quantiles of arrays of any shape have that shape, each value being the one for the probability at its place alone, for families truncated, censored or with a hurdle to any depth; a mixture raises ValueError for a matrix of more than one column.", "quantifier": "all arguments (numbers, lists and arrays without or with one dimension, of integers or floats), bounds, weights and wrapped distributions", "why_tests_cant": "Tests evaluate on one array of floats; a list, an array of integers or a repeated evaluation has to behave too", "anchors": ["preliz/distributions/truncated.py:124-163 Truncated, adjust_lower", "preliz/distributions/censored.py:172-194 Censored", "preliz/distributions/hurdle.py:113-162 Hurdle", "preliz/distributions/mixture.py:77-94 Mixture", "preliz/internal/optimization.py:587-607 find_ppf"]}
{"id": "C91", "title": "Grids, integrals over them and variances in double precision", "statement": "With every operation rounded to the nearest double, the values xvals gives for a continuous distribution start and end exactly at the ends of its range, never decrease, never leave the range, and lie within 4 units (2^-53 of the width) plus half a unit of the last digit of their places. Whatever the grid, the density and the order of the additions, the variance of a Truncated or Hurdle distribution computed over it is never negative, so its standard deviation is a number, and the mean of one on the positive numbers is not negative. The computed mean and variance are the sums of the trapezoids (of the terms, for a discrete distribution) of the values of the density up to a relative error of a few more than n units of 2^-52, n being the number of values; the mean of a Mixture is the weighted mean up to 2n units, and its variance is off by at most 4n + 2 units of the second moment plus the squared mean. Exceptions, each exhibited by a theorem: values of a narrow grid can coincide (1000 values from 1 to the next double); the variance of a Mixture, a difference of two rounded sums, can be negative and its standard deviation nan (two members with mean 5 and a standard deviation of 1e-8, weights 1 and 2).", "quantifier": "all doubles as ends at least 2^-900 apart or equal, all numbers of points up to 2^40, all densities, means and orders of summation", "why_tests_cant": "Tests compare moments with numerical references within a tolerance for a few distributions; that rounding never produces a value outside the range or a negative variance has to hold for every range and density", "anchors": ["preliz/distributions/distributions.py:632-661,1173-1174 xvals, _continuous_xvals", "preliz/distributions/truncated.py:82-112 Truncated.mean, var, std", "preliz/distributions/hurdle.py:77-107 Hurdle.mean, var, std", "preliz/distributions/mixture.py:107-128 Mixture.mean, var, std"]}
{"id": "C92", "title": "Samples have the requested shape and are reproducible", "statement": "rvs(size, random_state) returns an array of exactly the shape asked for (a number without size, a vector for a number, an array of those dimensions for a tuple) for every family, truncated, censored or with a hurdle to any depth; a tuple gives the same values as the number of entries, reshaped. With mixtures anywhere inside, asking for a number n gives n values. With an integer as random_state the sample is the same in every history of calls, and no generator of the user nor later call is affected. With a Generator, the samples and the state it is left in depend on the calls made with that generator only. Each call advances it by one draw (of the family, or of the uniform numbers of a truncated distribution or a hurdle), and censoring clips the sample of the base drawn with the same random state. Without a random state every call has a generator of its own. The components of a mixture draw in turn from one generator. Exceptions, each exhibited by a theorem: a mixture (censored or not) always returns a vector, also without size and for a tuple, and raises ValueError when no values are asked for; a truncated mixture raises ValueError for a matrix of more than one column.", "quantifier": "all distributions built from families by Truncated, Censored, Hurdle and Mixture to any depth, all sizes, random states and histories of calls", "why_tests_cant": "Tests draw vectors of a few sizes with a few seeds from a few distributions; shapes and reproducibility concern every nesting, shape and history", "anchors": ["preliz/distributions/normal.py:172-174 Normal.rvs (same lines in every family)", "preliz/distributions/truncated.py:120-139 Truncated.rvs, ppf", "preliz/distributions/censored.py:169-181 Censored.rvs, ppf", "preliz/distributions/hurdle.py:109-146 Hurdle.rvs, ppf", "preliz/distributions/mixture.py:87-88,136-144 Mixture.ppf, rvs", "preliz/internal/optimization.py:587-607 find_ppf", "preliz/distributions/distributions.py:211-222 Distribution.rvs"]}
