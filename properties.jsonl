{"id": "C01", "title": "POI save/load round trip", "statement": "Saving a model POI to a dictionary and loading it back gives exactly the same POI when minimum, maximum and initial value are set; in every case name, unit, description and every field that is set come back unchanged, and a minimum, maximum or initial value that is unset comes back as 0.", "quantifier": "every POI record, every combination of set/unset fields", "why_tests_cant": "the space of field combinations and numerical values is infinite; the loss happens only for particular unset fields", "anchors": ["src/fastprof/base.py:ModelPOI.load_dict", "src/fastprof/base.py:ModelPOI.fill_dict", "src/fastprof/base.py:Serializable.load_field"], "intended": "Saving a model POI to a dictionary and loading it back gives a POI with the same name, unit, value, error and range, for every POI whose numerical fields are all set; a POI with an unset bound or initial value must keep it unset."}
{"id": "C02", "title": "Nuisance parameter and auxiliary observable save/load round trip", "statement": "Saving a nuisance parameter (or auxiliary observable) to a dictionary and loading it back gives back every attribute unchanged, for every nuisance parameter that is consistent (an auxiliary observable is given only together with a constraint).", "quantifier": "every NP and auxiliary-observable record", "why_tests_cant": "infinitely many values; defaults of one field depend on the presence of another", "anchors": ["src/fastprof/base.py:ModelNP.load_dict", "src/fastprof/base.py:ModelNP.fill_dict", "src/fastprof/base.py:ModelAux"]}
{"id": "C03", "title": "Scaled and physical NP values are inverse of each other", "statement": "Converting a physical NP value into its scaled value and back (in either order) is the identity whenever the NP variation is non-zero, scaled value 0 is the nominal value, a scaled shift of 1 is one variation, and the pull with respect to the constraint is the same in both scales.", "quantifier": "all NPs with non-zero variation and all values", "why_tests_cant": "holds for all reals, not only tested values", "anchors": ["src/fastprof/base.py:ModelNP.unscaled_value", "src/fastprof/base.py:ModelNP.scaled_value", "src/fastprof/base.py:ModelNP.scaled_constraint", "src/fastprof/core.py:Parameters.set", "src/fastprof/core.py:Parameters.unscaled"]}
{"id": "C04", "title": "Markup field loading contract", "statement": "Reading a field from a markup dictionary returns the default exactly when the key is absent, the stored value when it is absent of type restriction or of an accepted type, None when the stored value is null, and raises a type error in every other case; the default is never substituted for a present value.", "quantifier": "every dictionary, key, default and list of accepted types", "why_tests_cant": "infinite domain of markup values", "anchors": ["src/fastprof/base.py:Serializable.load_field"]}
{"id": "C05", "title": "Gradients of expressions are the true derivatives", "statement": "For every expression (constant, single parameter, linear combination, product/ratio, exponential, arbitrarily nested through other expressions) the reported gradient with respect to the POIs equals the vector of partial derivatives of its reported value.", "quantifier": "every expression graph evaluated in order, every parameter point where the denominators are non-zero", "why_tests_cant": "a test compares one point numerically; the claim is an identity of functions over the reals for arbitrary nesting", "anchors": ["src/fastprof/expressions.py:LinearCombination.gradient", "src/fastprof/expressions.py:ProductRatio.gradient", "src/fastprof/expressions.py:Exponential.gradient", "src/fastprof/expressions.py:SingleParameter.gradient", "src/fastprof/expressions.py:Number.gradient"]}
{"id": "C06", "title": "Hessians of expressions are the true second derivatives", "statement": "At every point where no numerator factor of a product/ratio vanishes, the reported Hessian of every expression is its matrix of second partial derivatives with respect to the POIs; at a vanishing factor the reported Hessian may be undefined (a product x*y at x=0 is a case).", "quantifier": "every expression graph (every type but formulas), every parameter point with non-vanishing numerator factors", "why_tests_cant": "singular points (a vanishing factor) are isolated and missed by tests", "anchors": ["src/fastprof/expressions.py:ProductRatio.hessian", "src/fastprof/expressions.py:LinearCombination.hessian", "src/fastprof/expressions.py:Exponential.hessian"], "intended": "The reported Hessian of every expression equals its matrix of second partial derivatives with respect to the POIs, at every point where value and gradient are defined."}
{"id": "C07", "title": "Expression save/load round trip", "statement": "Writing any expression that is not a formula to a dictionary and instantiating it again gives the same expression; a formula can never be instantiated again, with or without its type.", "quantifier": "every expression of every type", "why_tests_cant": "infinitely many expressions", "anchors": ["src/fastprof/expressions.py:Expression.instantiate", "src/fastprof/expressions.py:Expression.fill_dict", "src/fastprof/expressions.py:LinearCombination.load_dict", "src/fastprof/expressions.py:ProductRatio.load_dict", "src/fastprof/expressions.py:Exponential.load_dict"], "intended": "Writing any expression to a dictionary and instantiating it again gives an expression of the same type with the same data."}
{"id": "C08", "title": "Replacing a parameter by a number preserves the value", "statement": "Whenever replacing a parameter by a value in an expression succeeds, all expressions evaluate as the original ones with the parameter set to that value, the replaced expression no longer depends on the parameter, and a constant returned is that value; replacing a factor of a product raises TypeError, and a missing value is rejected.", "quantifier": "every expression graph, every replaced name and value, all values of the other parameters, every successful replacement", "why_tests_cant": "identity over all reals and all expressions", "anchors": ["src/fastprof/expressions.py:LinearCombination.replace", "src/fastprof/expressions.py:ProductRatio.replace", "src/fastprof/expressions.py:Exponential.replace", "src/fastprof/expressions.py:SingleParameter.replace"], "intended": "After replacing a parameter by a value in an expression, evaluating it gives the same result as evaluating the original expression with the parameter set to that value; if the expression becomes constant the constant returned is that value."}
{"id": "C09", "title": "Normalization terms: choice of type and round trip", "statement": "A number, a null or an absent norm gives a numerical normalization of that value (1 when absent), any other string an expression normalization of that name, and saving then reloading a normalization gives the same normalization.", "quantifier": "every markup value for the norm field", "why_tests_cant": "infinite domain, the numeric-string corner case is easily missed", "anchors": ["src/fastprof/norms.py:Norm.instantiate", "src/fastprof/norms.py:NumberNorm", "src/fastprof/norms.py:ExpressionNorm"]}
{"id": "C10", "title": "Impact parametrization reproduces every tabulated variation", "statement": "For a table with the same number of distinct positive and negative variations, the computed polynomial coefficients vanish at zero and reproduce the tabulated impact at every tabulated variation (in exponential mode its logarithm, for impact factors between 1/100 and 100, others being clipped to these bounds); with unequal numbers of positive and negative variations reproduction fails (witness).", "quantifier": "every sample and parameter, every number of tabulated variations with equal numbers on both sides, any impact values; np.linalg.inv assumed to return an inverse of an invertible matrix", "why_tests_cant": "requires an argument for every polynomial degree", "anchors": ["src/fastprof/sample.py:Sample.impact_coefficients", "src/fastprof/sample.py:Sample.interpolate_impact"], "intended": "The polynomial coefficients computed from a table of impacts give back, when evaluated at each tabulated variation, exactly the tabulated impact (its logarithm in exponential mode), and vanish at zero."}
{"id": "C11", "title": "Impact lookup and symmetrization", "statement": "The impact of a parameter at a variation is the tabulated value (common to all bins, or of each bin) when the variation is in the table under its formatted value, proportional for a single number, zero for a parameter without impacts, and an error for a missing variation; the symmetric impact is half the difference of the +1 and -1 impacts and changes sign when the two are exchanged. Tables keyed 'pos'/'neg' cannot be used for the coefficients.", "quantifier": "all samples, parameters, variations and all representations of impacts", "why_tests_cant": "infinite domain", "anchors": ["src/fastprof/sample.py:Sample.impact", "src/fastprof/sample.py:Sample.sym_impact", "src/fastprof/sample.py:Sample.available_variations"], "intended": "The impact of a parameter at a variation is the tabulated value when present, zero for a parameter without impacts, and the symmetric impact is half the difference of the +1 and -1 impacts and changes sign when the two are exchanged."}
{"id": "C12", "title": "Nominal yields are reproduced at nominal parameters", "statement": "A sample whose normalization has its non-zero nominal value has exactly its nominal yields, and yields scale linearly with the normalization. The nominal normalization is the given one; if none is given it is the number of a numerical norm, the nominal value of the NP that is the norm, and 1 for any other expression (for which nominal yields are then not reproduced: witness).", "quantifier": "all samples, norms, parameter values and yields", "why_tests_cant": "identity over the reals", "anchors": ["src/fastprof/sample.py:Sample.normalization", "src/fastprof/sample.py:Sample.yields", "src/fastprof/core.py:Model.n_exp"], "intended": "When a sample is evaluated with its normalization at the nominal value and all NPs nominal, the expected event yields are exactly its nominal yields; yields scale linearly with the normalization."}
{"id": "C13", "title": "Sample save/load round trip", "statement": "Saving a sample and loading it back keeps its name, normalization, nominal normalization, yields and impacts.", "quantifier": "all samples", "why_tests_cant": "infinite domain", "anchors": ["src/fastprof/sample.py:Sample.load_dict", "src/fastprof/sample.py:Sample.fill_dict"]}
{"id": "C14", "title": "Dataset save/load round trip", "statement": "Saving the observed counts of a Poisson channel (single-bin, binned, multi-bin) and loading them back returns the same counts when they are integers; other counts are truncated towards zero, by less than 1; a vector of the wrong size is rejected. A Gaussian channel can be saved but its data can never be loaded back.", "quantifier": "all channels of all types and all count vectors", "why_tests_cant": "infinitely many counts; truncation is visible only for non-integer counts", "anchors": ["src/fastprof/channels.py:SingleBinChannel.save_dataset_dict", "src/fastprof/channels.py:MultiBinChannel.save_dataset_dict", "src/fastprof/channels.py:BinnedRangeChannel.save_dataset_dict", "src/fastprof/channels.py:GaussianChannel.save_dataset_dict", "src/fastprof/channels.py:SingleBinChannel.load_dataset_dict", "src/fastprof/channels.py:MultiBinChannel.load_dataset_dict", "src/fastprof/channels.py:BinnedRangeChannel.load_dataset_dict", "src/fastprof/channels.py:GaussianChannel.load_dataset_dict"], "intended": "Saving the observed counts of a channel and loading them back returns the same counts, for every channel type."}
{"id": "C15", "title": "Loading a dataset is all-or-nothing per channel", "statement": "Loading counts into a channel succeeds if and only if the channel name, the number of bins, and their names (or boundaries) match those of the channel in order and every count is a number, and then sets exactly these counts; a failed load raises an error, keeps the number of counts and leaves the counts of all later channels unchanged, but the first bins of the channel itself may already be overwritten (witness).", "quantifier": "all channels of all types and all markup data", "why_tests_cant": "infinite domain of malformed inputs", "anchors": ["src/fastprof/channels.py:MultiBinChannel.load_dataset_dict", "src/fastprof/channels.py:BinnedRangeChannel.load_dataset_dict", "src/fastprof/core.py:Data.load_dict"], "intended": "Loading counts into a channel succeeds only when the number, and names (or boundaries) of the bins match those of the channel in order; otherwise an error is raised and no count of another channel is changed."}
{"id": "C16", "title": "Channel bin layout", "statement": "In every model that can be built, the bins of the channels occupy consecutive, disjoint ranges that together cover exactly the bins of the model, Poisson channels come first, and extracting a channel from a full vector returns exactly the bins of that channel. A model listing a Gaussian channel before a Poisson one cannot be built.", "quantifier": "all models (any number of channels, any bin counts)", "why_tests_cant": "for every list of channels", "anchors": ["src/fastprof/core.py:Model.set_internal_vars", "src/fastprof/core.py:Model.channel_n_exp"], "intended": "The bins of the channels occupy consecutive, disjoint ranges that together cover exactly the bins of the model; Poisson channels come first; extracting the expectation of a channel from the full vector returns exactly the bins of that channel."}
{"id": "C17", "title": "Model save/load round trip", "statement": "Saving a model and loading it into a new object gives the same name, description, POIs, NPs, auxiliary observables, expressions and channels, and the same internal variables when the options agree, for models with distinct names, all POI fields set, no formula and no Gaussian channel; loading any markup reads everything that is declared. Options and cutoff are not saved, and Gaussian channels come back as Poisson channels.", "quantifier": "all models without formulas and Gaussian channels and with all POI fields set; all markup documents for the loading part", "why_tests_cant": "infinite domain", "anchors": ["src/fastprof/core.py:Model.load_dict", "src/fastprof/core.py:Model.fill_dict"], "intended": "Saving a model and loading it back gives the same POIs, NPs, auxiliary observables, expressions and channels."}
{"id": "C18", "title": "Expected yields formula", "statement": "In every regular model (a model is 'regular' when every sample has one yield, and one impact per bin where impacts are given bin by bin, and, in asymmetric mode, every table has as many positive as negative variations and the first NP has the most variations) the expected yield in every bin is the sum over the samples of its channel of the nominal yield times the relative normalization times the NP impact factor, each sample contributing only to its own channel.", "quantifier": "all regular models that can be built with distinct parameter names, all parameter values", "why_tests_cant": "identity over all model shapes", "anchors": ["src/fastprof/core.py:Model.n_exp", "src/fastprof/core.py:Model.tot_bin_exp", "src/fastprof/core.py:Model.set_internal_vars"], "intended": "The expected yield in every bin is the sum over the samples of nominal yield times normalization times the NP impact factor, every sample contributing only to the bins of its own channel."}
{"id": "C19", "title": "NP impact factors", "statement": "The NP impact factor is 1 at nominal NP values and positive in exponential mode for every model; in every regular model it is the product (sum in linear mode) of the effects of the NPs, using the positive coefficients for positive values and the negative ones otherwise, continuously; it reproduces 1+impact at every tabulated variation (within [1/100,100] in exponential mode) and the symmetric impact in symmetric mode. Models that are not regular violate this (witnesses for each condition). Regular: a model is 'regular' when every sample has one yield, and one impact per bin where impacts are given bin by bin, and, in asymmetric mode, every table has as many positive as negative variations and the first NP has the most variations.", "quantifier": "all models, modes and parameter values", "why_tests_cant": "identity and continuity over the reals", "anchors": ["src/fastprof/core.py:Model.k_exp"], "intended": "The multiplicative impact factor is 1 at nominal NP values for every mode; in exponential mode it is always positive; the asymmetric form uses the positive coefficients for positive parameter values, the negative ones for negative values, and is continuous; at integer one-variation pulls it reproduces 1+impact."}
{"id": "C20", "title": "Regularized impact factors stay within the cutoff", "statement": "With a cutoff, the factor stays strictly within the cutoff of 1, keeps the sign of the deviation, is increasing in the unregularized factor and never exceeds the unregularized deviation.", "quantifier": "all real factors and positive cutoffs", "why_tests_cant": "analytic inequality over the reals", "anchors": ["src/fastprof/core.py:Model.cut_k_exp"]}
{"id": "C21", "title": "Offsetting does not change likelihood differences", "statement": "When the reference yields of the Poisson bins are positive, the offset option subtracts one and the same constant from the negative log-likelihood at all parameter points with positive yields, so that all differences are unchanged, for Poisson and Gaussian channels; with a zero reference yield the offset likelihood is -infinity.", "quantifier": "all models with positive reference yields and symmetric inverse covariances, all datasets, all parameter points with positive expected yields, with and without constraints and floor", "why_tests_cant": "identity over the reals", "anchors": ["src/fastprof/core.py:Model.nll"], "intended": "For any dataset, the difference of negative log-likelihood between any two parameter points is the same with and without the offset option, for Poisson and Gaussian channels."}
{"id": "C22", "title": "Asimov datasets are maximally likely at their generation point", "statement": "For an Asimov dataset generated at a parameter point where the expected yields of all Poisson bins are positive, the likelihood is finite there and no parameter point has a lower negative log-likelihood, with or without offset and constraints; if a bin is empty at the generation point the likelihood is infinite there.", "quantifier": "all models (positive semi-definite inverse covariances, positive reference yields if the offset is used), all generation points with positive yields, all parameter points", "why_tests_cant": "a minimality claim over all parameter points", "anchors": ["src/fastprof/core.py:Model.generate_asimov", "src/fastprof/core.py:Model.generate_expected", "src/fastprof/core.py:Model.nll", "src/fastprof/core.py:Model.tot_bin_exp"], "intended": "For an Asimov dataset generated at a parameter point, no parameter point has a lower negative log-likelihood, for any model."}
{"id": "C23", "title": "Likelihood gradient is correct", "statement": "For models without Gaussian channels the reported gradient is the vector of partial derivatives of the negative log-likelihood with respect to the POIs wherever the likelihood is finite, with and without offset and constraints; for Gaussian channels it is not (witness: half of the derivative).", "quantifier": "all models without Gaussian channels, datasets and parameter points with finite likelihood", "why_tests_cant": "identity of functions", "anchors": ["src/fastprof/core.py:Model.gradient", "src/fastprof/core.py:Model.nll"], "intended": "The reported gradient is the vector of partial derivatives of the negative log-likelihood with respect to the POIs."}
{"id": "C24", "title": "Likelihood Hessian is correct", "statement": "For models without Gaussian channels the reported Hessian is the matrix of second partial derivatives of the negative log-likelihood with respect to the POIs wherever it is finite; it is symmetric for all models; for Gaussian channels it is not the second derivative (witness).", "quantifier": "all models without Gaussian channels (all models for symmetry), datasets and parameter points with finite likelihood", "why_tests_cant": "identity of functions", "anchors": ["src/fastprof/core.py:Model.hessian", "src/fastprof/core.py:Model.nll"], "intended": "The reported Hessian is the matrix of second partial derivatives of the negative log-likelihood with respect to the POIs, and is symmetric."}
{"id": "C25", "title": "Parameter vector construction and access", "statement": "Building a parameter vector for a model yields POI and NP vectors of exactly the sizes of the model or an error (in particular for a missing or null POI), defaults missing NPs to zero; setting a parameter by name changes that parameter only and is read back unchanged, for any history of assignments; a copy is equal. A single number for the NPs is refused with AttributeError.", "quantifier": "all inputs to the constructor and all sequences of set operations", "why_tests_cant": "all histories of assignments", "anchors": ["src/fastprof/core.py:Parameters.__init__", "src/fastprof/core.py:Parameters.set", "src/fastprof/core.py:Parameters.__getitem__"], "intended": "Building a parameter vector yields POI and NP vectors of exactly the sizes of the model or an error, never contains NaN, defaults missing NPs to zero, and setting a parameter by name changes that parameter only and is read back unchanged."}
{"id": "C26", "title": "Parameter dictionary round trip", "statement": "Writing parameters to a dictionary and setting them back from it with the same scaling option gives the same parameters (for non-zero variations in the unscaled form); every parameter is in the dictionary with its value; a dictionary in which a parameter is missing is rejected. With the default arguments of the two functions the round trip fails, the nominal form contains the NPs even when only POIs are requested, and both partial dictionaries and setting from auxiliary observables always raise.", "quantifier": "all models with distinct names, all parameter values, all dictionaries", "why_tests_cant": "all reals, all models", "anchors": ["src/fastprof/core.py:Parameters.dict", "src/fastprof/core.py:Parameters.set_from_dict", "src/fastprof/core.py:Parameters.set_from_aux", "src/fastprof/core.py:Parameters.partial_dict"], "intended": "Writing parameters to a dictionary and setting them back from it gives the same parameters (scaled and unscaled forms), and partial updates leave the others unchanged."}
{"id": "C27", "title": "Auxiliary observables are placed at their constrained NPs", "statement": "Setting auxiliary observables from a vector of the size of the NPs stores it unchanged; from a vector with one value per declared auxiliary observable, its values go in order to the constrained NPs and the free NPs get their nominal value (values in excess are ignored, too few raise IndexError); any other non-empty size is rejected with ValueError; without values the nominal values of the NPs are stored. Counts of the wrong size are rejected (NameError). The stored default is the unscaled nominal value: for a constrained NP of non-zero nominal value the likelihood is not minimal at nominal (witness).", "quantifier": "all models that can be built, all vectors of any size", "why_tests_cant": "every pattern of free and constrained NPs", "anchors": ["src/fastprof/core.py:Data.set_aux_obs", "src/fastprof/core.py:Data.set_counts"], "intended": "Setting auxiliary observables from a vector of the constrained parameters puts each value at its own NP and zero at the free NPs; a full-size vector is stored unchanged; any other size is rejected; and the default corresponds to observations at nominal."}
{"id": "C28", "title": "Dataset loading does not depend on the order of the entries", "statement": "Loading a dataset gives the same counts and auxiliary observables for any permutation of the channel and auxiliary-observable entries with distinct names; saving then loading a dataset of integer counts of a model without Gaussian channels (distinct auxiliary observables, non-zero variations, zero at NPs without auxiliary observable) gives it back. Fractional counts are truncated.", "quantifier": "all models and all permutations; for the round trip all integer datasets of models without Gaussian channels", "why_tests_cant": "all permutations of arbitrary length", "anchors": ["src/fastprof/core.py:Data.load_dict", "src/fastprof/core.py:Data.fill_dict"], "intended": "Loading a dataset gives the same counts and auxiliary observables for any permutation of the channel and auxiliary-observable entries, and saving then loading an integer-valued dataset gives it back."}
{"id": "C29", "title": "NP profiling solves the quadratic approximation exactly", "statement": "The system solved by NP profiling is the gradient and Hessian, at the hypothesis, of the likelihood with the impacts linearized at that point (Poisson channels, and Gaussian channels without log-normal terms). When its determinant is at least (1/1000)^(number of NPs) the profiled NPs are the stationary point of that quadratic approximation; without log-normal terms they minimize it; for Gaussian channels and linear impacts starting from zero NPs they are the true minimum of the likelihood of the model. It fails for Gaussian channels with log-normal terms, for restarts from non-zero NPs, and for smaller determinants (witnesses), and exact (non-symmetric) impacts at non-zero NPs always raise.", "quantifier": "all models and datasets meeting the stated conditions, all hypotheses, every linear solver that returns solutions", "why_tests_cant": "minimality over all NP vectors", "anchors": ["src/fastprof/minimizers.py:NPMinimizer.profile", "src/fastprof/minimizers.py:NPMinimizer.poisson", "src/fastprof/minimizers.py:NPMinimizer.gaussian", "src/fastprof/minimizers.py:NPMinimizer.pq_einsum"], "intended": "The NP profile step returns the stationary point (and minimum) of the quadratic approximation to the negative log-likelihood at the hypothesis; for models with Gaussian channels and linear impacts it is the exact profiled minimum."}
{"id": "C30", "title": "NP profiling keeps the POIs and handles degenerate systems", "statement": "Profiling never changes the POI values of the hypothesis, returns the NPs unchanged when the linear system is degenerate, and leaves the input hypothesis unmodified.", "quantifier": "all hypotheses and linear systems", "why_tests_cant": "all inputs", "anchors": ["src/fastprof/minimizers.py:NPMinimizer.profile"]}
{"id": "C31", "title": "POI minimizer initialization stays within bounds", "statement": "After configuring the POIs of a minimizer with non-empty ranges, every initial value is within its bounds, values given within bounds are kept, a fixed POI has a zero-width interval at its value, the other POIs keep the range of the model or the one given; configuring succeeds whenever all ranges are two-sided. A one-sided range raises TypeError, with an inverted range the initial value is outside it, fixing a value through set_constant has no effect on the fit, and unset ranges are treated as fixed.", "quantifier": "all models, hypotheses, initial values and bounds", "why_tests_cant": "all combinations of set/unset bounds", "anchors": ["src/fastprof/minimizers.py:POIMinimizer.set_pois", "src/fastprof/minimizers.py:POIMinimizer.set_constant", "src/fastprof/minimizers.py:POIMinimizer.free_pois"], "intended": "After configuring the POIs of a minimizer, every initial value is within its bounds, a fixed POI has a zero-width interval at its value, and the other POIs keep the model range."}
{"id": "C32", "title": "The profile likelihood ratio is never negative", "statement": "Whenever t_mu is returned and both stored likelihoods are finite it is the larger of 0 and twice their difference, the likelihoods being those of the minimization with the POIs fixed to the hypothesis and of the free one; it is never negative; a negative difference is retried with the alternative method if there is one. A failed minimization does not give None (a number is still returned), and infinite likelihoods give NaN.", "quantifier": "all models, settings, hypotheses and all outcomes of the optimization routine", "why_tests_cant": "all real outcomes", "anchors": ["src/fastprof/minimizers.py:POIMinimizer.tmu"], "intended": "The t_mu value returned is the doubled difference of the two minimized likelihoods when that is positive and zero otherwise, and None exactly when a minimization failed."}
{"id": "C33", "title": "Minimizer results do not depend on its previous use", "statement": "With the default settings (no rebound, no alternative method, no bounds set by hand) and a method suited to the number of free POIs, minimizing or computing t_mu after any history of previous calls of a minimizer gives the same result as with a new one. It does not after a call where all POIs were fixed with bounds set by hand, after the automatic change of method, or with the rebound and alternative-method recoveries (witnesses).", "quantifier": "all models, all finite histories of minimize/t_mu calls, all outcomes of the optimization routine", "why_tests_cant": "a property of call histories", "anchors": ["src/fastprof/minimizers.py:OptiMinimizer.minimize", "src/fastprof/minimizers.py:OptiMinimizer.clone"], "intended": "Calling a minimizer twice gives the same result as calling a fresh one, in particular after a call where all POIs were fixed."}
{"id": "C34", "title": "Minimizer copies keep their configuration", "statement": "A cloned minimizer has the same method, iteration count, floor, rebound count and alternative method as the original; its derivative choice and verbosity are always the default ones.", "quantifier": "all configurations", "why_tests_cant": "all configurations", "anchors": ["src/fastprof/minimizers.py:OptiMinimizer.clone"], "intended": "A cloned minimizer has the same method, iteration count, derivative choice and verbosity as the original."}
{"id": "C35", "title": "Sign and definition of the test statistics", "statement": "q_mu is t_mu when the best fit is below the hypothesis and -t_mu otherwise; q~_mu built with an explicit t_0 is t_0 when the best fit is negative and q_mu otherwise; the signed square root is odd, increasing and its square is the absolute value. The calculators never pass t_0: their q~_mu is t_mu when the best fit is negative.", "quantifier": "all hypotheses, best fits, test statistic values", "why_tests_cant": "all reals", "anchors": ["src/fastprof/test_statistics.py:QMu.value", "src/fastprof/test_statistics.py:QMuTilda.value", "src/fastprof/test_statistics.py:QMu.signed_sqrt"], "intended": "q_mu is t_mu when the best fit is below the hypothesis and -t_mu otherwise; q~_mu uses the t_0-based form when the best fit is negative; the signed square root squares back to the absolute value."}
{"id": "C36", "title": "Asymptotic p-values are probabilities and decrease", "statement": "The asymptotic p-values of q_mu, and of q~_mu with a positive threshold, are strictly between 0 and 1 and strictly decrease when the test statistic increases, and the two branches of q~_mu agree at and below the threshold; a zero threshold (non-positive Asimov t_0) raises ZeroDivisionError.", "quantifier": "all test statistic values, hypotheses and non-centralities, every strictly decreasing survival function with values in (0,1) (the normal one is shown to be one)", "why_tests_cant": "monotonicity over the reals", "anchors": ["src/fastprof/test_statistics.py:QMu.asymptotic_pv", "src/fastprof/test_statistics.py:QMuTilda.asymptotic_pv", "src/fastprof/test_statistics.py:QMuTilda.threshold"], "intended": "Asymptotic p-values of q_mu and q~_mu are in [0,1] and never increase when the test statistic increases; the two branches of q~_mu agree at the threshold."}
{"id": "C37", "title": "Asymptotic test statistic value inverts the p-value", "statement": "For q_mu, computing the test statistic of a p-value and the p-value of that test statistic gives the p-value back, and conversely. For q~_mu with a positive threshold the round trip of a p-value holds exactly when the quantile is on the same side of the threshold and of its square root, and fails otherwise (witness). For t_mu it does not hold (witness).", "quantifier": "all p-values in (0,1), test statistic values and non-centralities; every strictly decreasing survival function with its inverse (the normal one is shown to be one)", "why_tests_cant": "identity over the reals; fails only in a band of p-values", "anchors": ["src/fastprof/test_statistics.py:QMu.asymptotic_ts", "src/fastprof/test_statistics.py:QMuTilda.asymptotic_ts", "src/fastprof/test_statistics.py:TMu.asymptotic_ts"], "intended": "Computing the test statistic of a p-value and the p-value of that test statistic gives the p-value back, for q_mu and q~_mu."}
{"id": "C38", "title": "CLs is a probability and is conservative", "statement": "CL_s = CL_{s+b}/CL_b is in (0,1] and larger than CL_{s+b} for q_mu and q~_mu as built by the calculators (positive Asimov t_0 for q~_mu), and is 1 when CL_b is 0; for a q~_mu object built by hand with an explicit t_0 it can exceed 1.", "quantifier": "all test statistic values and hypotheses handled by the calculators", "why_tests_cant": "inequality over the reals", "anchors": ["src/fastprof/test_statistics.py:QMu.cls", "src/fastprof/test_statistics.py:QMu.clb", "src/fastprof/test_statistics.py:QMuTilda.clb"], "intended": "CL_s = CL_{s+b}/CL_b is in [0,1] and at least CL_{s+b} for non-negative hypotheses, and is 1 when CL_b is 0."}
{"id": "C39", "title": "Scans with a common best fit are non-negative", "statement": "In the best-fixed-fit mode of the t_mu calculator, every point gets a non-negative t_mu and the best point gets zero, so adding points to the scan never makes a t_mu smaller.", "quantifier": "all lists of hypotheses and likelihood values", "why_tests_cant": "all lists", "anchors": ["src/fastprof/calculators.py:TMuCalculator.compute_fast_results"]}
{"id": "C40", "title": "Sampling p-values", "statement": "The sampling p-value of a tested value is in [0,1], never decreases when the tested value increases, equals the fraction of samples strictly below plus half the fraction equal to it, and does not depend on the order in which the pseudo-experiments were generated, for samples in memory and for files saved with sorting (the default); for files saved unsorted it depends on the order (witness). Its error is positive.", "quantifier": "all non-empty sampling distributions and tested values, numpy's binary search included", "why_tests_cant": "all lists and permutations", "anchors": ["src/fastprof/sampling.py:SamplingDistribution.pv", "src/fastprof/sampling.py:SamplingDistribution.sort"], "intended": "The sampling p-value of a tested asymptotic p-value is in [0,1], never decreases when the tested value increases, equals the fraction of samples strictly below plus half the fraction of samples equal to it, and does not depend on the order in which the pseudo-experiments were generated, whether the samples come from memory or from a file."}
{"id": "C41", "title": "Sampling quantiles", "statement": "The quantile of order f, for every fraction 0 <= f < 1, is one of the values, at most a fraction f of the values are strictly below it and more than a fraction f are at or below it, and quantiles are monotonic in f; the fraction 1 raises IndexError and fractions outside [0,1] are rejected.", "quantifier": "all non-empty distributions and all fractions", "why_tests_cant": "all lists, boundary fractions", "anchors": ["src/fastprof/sampling.py:SamplingDistribution.quantile"], "intended": "The quantile of order f of a sampling distribution is one of its values, at most a fraction f of the values are strictly below it, quantiles are monotonic in f, and every fraction in [0,1] is accepted."}
{"id": "C42", "title": "Cutting a sampling distribution", "statement": "Cutting keeps exactly the values within the requested bounds, in order, for every pair of non-zero bounds; a bound equal to zero is ignored.", "quantifier": "all distributions and bounds", "why_tests_cant": "the failing case is a specific bound value", "anchors": ["src/fastprof/sampling.py:SamplingDistribution.cut"], "intended": "Cutting keeps exactly the values within the requested bounds, for every pair of bounds including zero."}
{"id": "C43", "title": "Sampling distribution files", "statement": "Saving then loading a distribution gives the same values (sorted by default) and touches no other file; loading with a requested number returns exactly that many leading values of the file or an error if there are fewer, so that for a sorted file the smallest values are kept and no p-value gets smaller.", "quantifier": "all distributions, file names, tested values and requested sizes", "why_tests_cant": "all sizes", "anchors": ["src/fastprof/sampling.py:SamplingDistribution.load", "src/fastprof/sampling.py:SamplingDistribution.save"], "intended": "Saving then loading a distribution gives the same values; loading with a requested number returns exactly that many or an error, and the values kept are not biased (they do not depend on the order of the values)."}
{"id": "C44", "title": "Concurrent and interrupted sample production", "statement": "With any number of concurrent jobs, any schedule and crashes at any point: when all jobs have ended without crashing every requested file holds a complete sample (no lock left at the start, or locks ignored); if looking for a lock and taking it are done without interruption, each sample is produced at most once, by one job at a time; a job that breaks locks produces all its files provided none is incomplete. Without that exclusion two jobs may produce the same sample, a job may load an incomplete file, a lock left by a crash stops the production of its file for ever, and an incomplete file is never repaired (witnesses and general proofs).", "quantifier": "all numbers of jobs, lists of hypotheses, schedules and crash points", "why_tests_cant": "schedules and crash points cannot be enumerated", "anchors": ["src/fastprof/sampling.py:Samples.generate_and_save"], "intended": "With any number of concurrent jobs, each of which may crash at any point: no hypothesis is produced by two jobs, an existing sample file always holds a complete sample, and production can be completed after a crash."}
{"id": "C45", "title": "Distinct hypotheses use distinct sample files", "statement": "Two hypotheses (same number of parameters) share a sample file if and only if the values of all their parameters agree in the '%g' format, i.e. to six significant digits; in particular values that differ by more than 1e-5 relative have different files, and closer values can collide (witness).", "quantifier": "all pairs of hypotheses, all real parameter values, names and suffixes", "why_tests_cant": "collision needs specific values", "anchors": ["src/fastprof/sampling.py:Samples.file_name"], "intended": "Two different hypotheses never share a sample file."}
{"id": "C46", "title": "CLs from sampling", "statement": "The sampling CLs is the ratio of the two p-values when the denominator is positive and 1 otherwise, and is in [0,1] when the numerator does not exceed the denominator; expected bands are ordered.", "quantifier": "all sampling distributions", "why_tests_cant": "all lists", "anchors": ["src/fastprof/sampling.py:CLsSamples.pv", "src/fastprof/sampling.py:CLsSamples.bands"]}
{"id": "C47", "title": "Pseudo-experiment production terminates with exactly the requested number of values", "statement": "Generating n pseudo-experiments, when it ends, returns exactly the first n successful values in order, retrying failed fits, and it ends as soon as n fits succeed; if they never do it never gives up, whatever the maximum number of tries. The scan and limit samplers always raise AttributeError.", "quantifier": "all numbers of values and all infinite sequences of fit outcomes", "why_tests_cant": "termination for every sequence of failures", "anchors": ["src/fastprof/samplers.py:Sampler.generate"], "intended": "Generating n pseudo-experiments returns n valid values, retries failed fits, and gives up after the maximum number of tries instead of looping forever."}
{"id": "C48", "title": "Scan crossings and limits", "statement": "Every crossing returned is a point within the scan range where the interpolated curve, which goes through the scan points, equals the requested level, and crossings are increasing, likewise with errors; the upper limit is the smallest crossing of the level 5%, whatever confidence level is requested. Interpolation orders other than 3, and less than four points, give no crossing.", "quantifier": "all scans, levels and orders, under the contract that scipy's cubic roots are the roots within the range of the interpolating spline", "why_tests_cant": "all real curves", "anchors": ["src/fastprof/scans.py:Scan1D.crossings", "src/fastprof/scans.py:UpperLimitScan.limit", "src/fastprof/scans.py:UpperLimitScan.__init__"], "intended": "Every crossing returned is a point where the interpolated curve equals the requested level, within the scan range; the upper limit uses the requested confidence level."}
{"id": "C49", "title": "Scan minimum", "statement": "The minimum (maximum) reported by a scan is a hypothesis of the scan where the value is smallest (largest); the list of minima of a scan with too few points for the interpolation contains a scan value instead of a position.", "quantifier": "all scans", "why_tests_cant": "the fallback branch is rarely taken", "anchors": ["src/fastprof/scans.py:Scan1D.minima", "src/fastprof/scans.py:Scan.minimum"], "intended": "The minimum reported by a scan is a hypothesis of the scan where the value is smallest."}
{"id": "C50", "title": "Profile-likelihood intervals", "statement": "The interval of a profile likelihood scan is centred on the listed minimum with the smallest interpolated value; its errors are the distances from it to the first two crossings of the level, a single crossing gives an error on its own side only, and no crossing gives no error; if the curve is below the level at the minimum and above at both ends, and has just two crossings, both errors are positive. With more than two crossings an error can be negative, and with less than five points the centre is a scan value instead of a position.", "quantifier": "all scans and levels, under the contract on scipy's cubic roots for the position of the crossings", "why_tests_cant": "all crossing configurations", "anchors": ["src/fastprof/scans.py:PLRScan1D.interval"], "intended": "The interval of a profile likelihood scan has its lower end below and upper end above the minimum, and both ends are crossings of the level; a missing side gives no error on that side."}
{"id": "C51", "title": "Equal hypotheses are the same dictionary key", "statement": "Two hypotheses compare equal exactly when they have the same parameters with the same values; equal hypotheses written in the same order have the same hash, so that a result stored under one is found under the other, and different hypotheses are never confused; equal hypotheses written in different orders are not found when the hashes of the name lists differ.", "quantifier": "all pairs of hypotheses and all dictionaries of results", "why_tests_cant": "order of parameters in a dictionary", "anchors": ["src/fastprof/fit_data.py:POIHypo.__hash__", "src/fastprof/fit_data.py:POIHypo.__eq__"], "intended": "Two hypotheses that compare equal have the same hash, so a fit result stored under one is found under the other."}
{"id": "C52", "title": "Fit results save/load round trip", "statement": "Saving a fit result and loading it gives the same likelihood value, the same parameters with the same values and errors, and the same parameter vector (with a hypothesis, the fixed parameters at the values of the hypothesis), for models with distinct names and non-zero variations; the ranges of the parameters, unset in fit results, come back as 0.", "quantifier": "all fit results of all such models", "why_tests_cant": "all reals", "anchors": ["src/fastprof/fit_data.py:FitResult.load_dict", "src/fastprof/fit_data.py:FitResult.fill_dict", "src/fastprof/fit_data.py:FitResult.pars", "src/fastprof/fit_data.py:PLRData.load_dict", "src/fastprof/fit_data.py:PLRData.fill_dict"], "intended": "Saving a fit result and loading it gives the same likelihood value and the same scaled parameter values."}
{"id": "C53", "title": "Global best fit of a raster", "statement": "The t_mu of every point of a raster is twice the difference of the likelihoods of its own two fits, so it is not negative when the free likelihood of the point is not above the fixed one; the global best-fit option never changes the result (it only raises TypeError when a free likelihood is missing), so t_mu can be negative although another point has a lower free likelihood (witness).", "quantifier": "all rasters of any number of points, all fit values", "why_tests_cant": "all lists of fits", "anchors": ["src/fastprof/fit_data.py:Raster.set_global_best_fit"], "intended": "Requesting the global best fit makes every point of the raster use the lowest free-fit likelihood, so that no t_mu is negative."}
{"id": "C54", "title": "Raster completeness test", "statement": "A raster is reported filled for a key, without restriction flags, exactly when every point holds a p-value or a test statistic of that name; with any restriction flag it is always reported filled.", "quantifier": "all rasters and keys", "why_tests_cant": "all combinations", "anchors": ["src/fastprof/fit_data.py:Raster.is_filled"], "intended": "A raster is reported filled exactly when every point holds the requested results."}
{"id": "C55", "title": "Parameter bounds algebra", "statement": "The intersection of two bounds accepts exactly the values accepted by both, is commutative, associative and idempotent, and an unset bound does not constrain.", "quantifier": "all bounds and values", "why_tests_cant": "all reals", "anchors": ["src/fastprof/model_tools.py:ParBound.__and__", "src/fastprof/model_tools.py:ParBound.test_value", "src/fastprof/model_tools.py:ParBound.is_fixed", "src/fastprof/model_tools.py:ParBound.is_free"]}
{"id": "C56", "title": "Removing nuisance parameters preserves the predictions", "statement": "Removing NPs from a regular model removes exactly the designated ones and the auxiliary observables that belong only to them, and changes nothing else; in the exponential form without cutoff the expected yields of the reduced model at any values of the remaining parameters equal those of the original with the removed NPs at the removal values (the values given under their names, otherwise the nominal values used as scaled values), likewise for pruning, and pruned NPs have a symmetric impact below the threshold in every bin. The predictions change in linear form, values given with a pattern are ignored, a zero reference normalization or an NP used in an expression makes the result unusable or raises, pruning raises if an impact is missing, and impacts of the same sign are pruned whatever their size. Regular: a model is 'regular' when every sample has one yield, and one impact per bin where impacts are given bin by bin, and, in asymmetric mode, every table has as many positive as negative variations and the first NP has the most variations.", "quantifier": "all regular models, removed NPs and values for which removal succeeds with a regular result, samples normalized to a removed NP having its nominal value as nominal norm; all values of the remaining parameters", "why_tests_cant": "identity over all models", "anchors": ["src/fastprof/model_tools.py:NPPruner.remove_nps", "src/fastprof/model_tools.py:NPPruner.prune"], "intended": "After removing an NP at a value, the expected yields of the reduced model at any remaining parameter values equal those of the original model with the removed NP set to that value."}
{"id": "C57", "title": "Pruning samples keeps the significant ones", "statement": "Pruning drops exactly the samples whose significance in their channel is below the threshold, leaves all others unchanged, and the predictions are those of the original model minus the contributions of the dropped samples; if all samples of a channel are below the threshold pruning raises ValueError.", "quantifier": "all models and thresholds; regular models (one yield per bin, balanced impact tables, first NP with most variations) before and after for the predictions", "why_tests_cant": "all models", "anchors": ["src/fastprof/model_tools.py:SamplePruner.prune"], "intended": "Pruning keeps every sample whose share of the yield is above the threshold and leaves kept samples unchanged."}
{"id": "C58", "title": "Merging channels preserves the predictions and the data", "statement": "After merging counting or multi-bin channels in which samples of the same name have the same norm and +1/-1 impact tables given per bin, with zero cutoff, the expected yields in each bin of the merged channel and in the other channels equal the original ones, for all parameter values, and the merged data has the same counts in each bin. Impacts common to all bins make the merge fail with ValueError, different norms change the yields, the cutoff is lost, and an unknown channel gives None, or KeyError if it is the first one (witnesses and general proofs).", "quantifier": "all models, lists of channels, parameter values and datasets meeting the stated conditions", "why_tests_cant": "identity over all models", "anchors": ["src/fastprof/model_tools.py:ChannelMerger.merge", "src/fastprof/model_tools.py:ChannelMerger.merge_data", "src/fastprof/model_tools.py:ChannelMerger.check"], "intended": "After merging channels the expected yields and observed counts in each bin of the merged channel equal those in the original channels, bin by bin, for all parameter values."}
{"id": "C59", "title": "Removing POIs from a model", "statement": "Whenever removing POIs succeeds, exactly the designated POIs are removed, normalizations keep the parameters and expressions they name, and the expected yields equal those of the original model at the replacement values. It raises if a sample is normalized directly to the POI, if an expression becomes constant, if an expression depends on the POI through a product, and for two POIs of which the first removal empties an expression.", "quantifier": "all models, patterns, replacement values and values of the other parameters", "why_tests_cant": "identity over all models", "anchors": ["src/fastprof/model_tools.py:ModelReparam.remove_pois", "src/fastprof/model_tools.py:ModelReparam.remove_expressions", "src/fastprof/model_tools.py:ModelReparam.remove_from_norms"], "intended": "Removing a POI with a replacement value gives a model whose expected yields equal those of the original model at that POI value."}
{"id": "C60", "title": "Merging models", "statement": "The merged model has the channels of all inputs, unchanged if their names are distinct, and, rebuilt from the same parameter definitions, predicts the same yields in each channel as the input model. The offsets and the number of bins are right when each added model has one channel. The check never succeeds (it reads a missing attribute), overlapping channels are accepted and overwritten, parameters of the added models are dropped, with several channels per model the bins are over-counted, and the merged object itself cannot be evaluated (proved).", "quantifier": "all lists of models of any number of channels, all parameter values", "why_tests_cant": "all lists of models", "anchors": ["src/fastprof/model_tools.py:ModelMerger.check", "src/fastprof/model_tools.py:ModelMerger.merge"], "intended": "The merged model contains every channel of the inputs, overlapping channel names are rejected, and incompatible parameter definitions are rejected."}
{"id": "C61", "title": "Hypothesis grids are the full cartesian product", "statement": "Expanding an assignment list with value ranges gives exactly the cartesian product of the values of the ranges, in lexicographic order, nothing missing and nothing else; a range a:b:n has n equidistant values from a excluding b (including b with n+), several ranges are concatenated, a single number is one value; log ranges are always refused.", "quantifier": "all assignment lists, numbers of ranges and of points", "why_tests_cant": "any number of parameters and ranges", "anchors": ["src/fastprof_utils/tools.py:process_setval_dicts", "src/fastprof_utils/tools.py:process_values_spec"], "intended": "Expanding an assignment list with value ranges gives exactly the cartesian product of the ranges, in lexicographic order, with no range left unexpanded."}
{"id": "C62", "title": "Assignments to several nuisance parameters", "statement": "Without scaling, every parameter matched by a sequence of assignments gets the value of the last assignment that matches it and no other parameter is assigned; an assignment matching no parameter is refused. With scaling, the only matching NP gets its scaled value and matching POIs the value itself; when two NPs match, the second one gets the scaled value of the scaled value of the first.", "quantifier": "all models, patterns and sequences of assignments; for scaling, patterns matching one or two NPs", "why_tests_cant": "needs two or more matching NPs with different scalings", "anchors": ["src/fastprof_utils/tools.py:process_setvals"], "intended": "When an assignment pattern matches several NPs with scaling requested, every NP receives its own scaled value of the given number."}
{"id": "C63", "title": "Range assignments", "statement": "A sequence of valid range assignments sets, on each side, every matching POI to the last bound given on that side, and changes nothing else; an assignment matching no POI or with an invalid number raises ValueError, leaving the effect of the assignments before it.", "quantifier": "all models and sequences of assignments", "why_tests_cant": "all models", "anchors": ["src/fastprof_utils/tools.py:process_setranges"], "intended": "A range assignment changes the bounds of exactly the matching POIs, on the sides that are given."}
{"id": "C64", "title": "pyhf conversion keeps yields and impacts", "statement": "Converting a pyhf model whose modifiers are regular (non-zero yields, up and down variations of opposite sides, no overall variation after a bin-by-bin one of the same parameter in more than two bins, normfactor names distinct from the other modifiers) gives a model that loads, with the same channels, bins and nominal yields, impacts that reproduce every varied yield, and every parameter of the measurement and of the modifiers declared once with its constraint. Outside these conditions: variations on the same side zero or invert impacts, impacts are truncated to two bins, modifiers are dropped, empty bins raise KeyError; an undeclared normfactor stays undeclared, the luminosity uncertainty of the first measurement is used, and auxdata is ignored (proved).", "quantifier": "all pyhf documents meeting the stated conditions, any number of channels, samples, modifiers, bins; each condition shown necessary", "why_tests_cant": "all models", "anchors": ["src/fastprof_import/convert_pyhf_json.py:run"], "intended": "Converting a pyhf model keeps every nominal yield, and gives for each modifier a relative impact that reproduces the varied yields; every referenced parameter is declared exactly once."}
{"id": "C65", "title": "Implicit NP impacts of normalizations", "statement": "Impacts that are given explicitly are never overwritten; when a sample is normalized directly to a nuisance parameter with non-zero nominal value and gives no impact for it, the impact that is assumed equals the relative change of the normalization at plus and minus the given variation. When the norm is an expression of the NP the assumed impact is computed from unchanged values and is wrong (witness: 0 instead of 1).", "quantifier": "all samples, NPs and variations", "why_tests_cant": "all expressions and nominal values", "anchors": ["src/fastprof/norms.py:ExpressionNorm.implicit_impact", "src/fastprof/sample.py:Sample.set_np_data"], "intended": "When a sample normalization depends on a nuisance parameter and the sample gives no explicit impact for it, the impact that is assumed equals the relative change of the normalization at plus and minus the given variation; impacts that are given explicitly are never overwritten."}
{"id": "C66", "title": "Channel save/load round trip and copies", "statement": "Saving a single-bin, binned or multi-bin channel and loading it back gives the same channel, and a copy is identical to the original, when samples are stored under their distinct names; a Gaussian channel is reloaded as a Poisson channel and cannot be copied when it has samples.", "quantifier": "all channels of every kind, all samples whose norm expression is not a numerical string", "why_tests_cant": "all channels and samples", "anchors": ["src/fastprof/channels.py:SingleBinChannel.load_dict", "src/fastprof/channels.py:BinnedRangeChannel.fill_dict", "src/fastprof/channels.py:GaussianChannel", "src/fastprof/core.py:Model.load_dict"], "intended": "Saving a channel and loading it back gives the same channel of the same kind, and a copy of a channel is identical to the original."}
{"id": "C67", "title": "Copies of models", "statement": "A copy of a complete model without Gaussian channels is identical to it, with the same parameters, channels, expressions, options and computed coefficients, except for the cutoff, which is always reset to 0; a model with a non-empty Gaussian channel cannot be copied.", "quantifier": "all models that could be built, all options", "why_tests_cant": "copies are compared on a few sample models only; a lost option or a channel type without a working copy shows up only for the models that use them", "anchors": ["src/fastprof/core.py:Model.clone", "src/fastprof/core.py:Model.__init__", "src/fastprof/channels.py"], "intended": "A copy of a model makes the same predictions as the original: it has the same parameters, channels, expressions, options and computed coefficients."}
{"id": "C68", "title": "Loading a model replaces the previous contents", "statement": "Loading a model from a dictionary gives the same object whatever POIs, NPs, auxiliary observables and channels the object contained before; only its options and expressions survive: the expressions are kept in front of the loaded ones, and loading raises ValueError if a name is in both.", "quantifier": "all previous contents of the object, all markup contents", "why_tests_cant": "tests load into fresh objects; left-overs depend on the history of the object", "anchors": ["src/fastprof/core.py:Model.load_dict"], "intended": "Loading a model from a dictionary gives the same object whatever the object contained before."}
{"id": "C69", "title": "Profiling accepts the documented hypothesis formats", "statement": "Profiling succeeds only for a hypothesis given as a parameter object, and does so whenever the system can be written and solved; any other format (a dictionary, a list of values) raises NameError although the documentation accepts it.", "quantifier": "all models, datasets and hypotheses", "why_tests_cant": "must hold for every format and value", "anchors": ["src/fastprof/minimizers.py:NPMinimizer.profile"], "intended": "Profiling the nuisance parameters at a hypothesis given as any of the documented formats (parameter object, dictionary, list of values) gives the same result as with the equivalent parameter object."}
{"id": "C70", "title": "Best-fit parameters belong to the best-fit likelihood", "statement": "If the optimization routine ends by evaluating its result, then after a successful minimization the stored best-fit parameters are the ones whose likelihood is the returned best-fit value; otherwise the stored parameters are those of the last evaluation (witness), and the CG method with positive verbosity always raises.", "quantifier": "all models, settings and optimization routines that end at their result", "why_tests_cant": "must hold for every sequence of points the optimizer evaluates", "anchors": ["src/fastprof/minimizers.py:OptiMinimizer.minimize", "src/fastprof/minimizers.py:POIMinimizer.profile_nps"], "intended": "After a successful minimization the stored best-fit parameters are the ones whose likelihood is the returned best-fit value."}
{"id": "C71", "title": "Toy selection bounds apply to the best-fit parameters", "statement": "A pseudo-experiment is kept exactly when t_mu is not negative and the tested values of both fits satisfy all bounds given to the sampler. The tested values are the POIs and, for the NPs, the differences between the starting point and the best fit instead of the best fit itself (witness).", "quantifier": "all bounds, parameters and test statistic values", "why_tests_cant": "all real values and bounds", "anchors": ["src/fastprof/samplers.py:OptiSampler.compute"], "intended": "A pseudo-experiment is kept exactly when its best-fit parameters, in both fits, satisfy the bounds given to the sampler."}
{"id": "C72", "title": "Asimov reference of a raster", "statement": "Attaching Asimov results to a raster listing the same hypotheses in the same order gives each point the Asimov t_mu of its own hypothesis and changes nothing else; a raster of another size is rejected; in another order the values are attached by position to the wrong hypotheses (witness).", "quantifier": "all rasters and Asimov rasters", "why_tests_cant": "must hold for every set and order of hypotheses", "anchors": ["src/fastprof/fit_data.py:Raster.set_asimov"], "intended": "Attaching Asimov results to a raster gives each point the Asimov test statistic computed at that point's own hypothesis."}
{"id": "C73", "title": "Raster files round trip", "statement": "Saving a raster and loading it back keeps its points in order with their hypotheses, likelihoods, fitted parameters, test statistics and numerical p-values; a p-value with an error comes back as a list and is no longer read as a number, the full hypothesis loses its NP values, and a raster of one point has no parameters.", "quantifier": "all rasters with distinct hypotheses, of models with distinct parameter names", "why_tests_cant": "all sets of points and values", "anchors": ["src/fastprof/fit_data.py:Raster.dump_dict", "src/fastprof/fit_data.py:Raster.load_dict", "src/fastprof/fit_data.py:PLRData.dump_dict", "src/fastprof/fit_data.py:PLRData.load_dict"], "intended": "Saving a raster and loading it back keeps its points in order with their hypotheses, likelihoods, fitted parameters, test statistics and p-values."}
{"id": "C74", "title": "Reported confidence level is the requested one", "statement": "The confidence level reported by a profile-likelihood interval or contour is the one that was requested, directly or as a number of standard deviations.", "quantifier": "all confidence levels and numbers of standard deviations", "why_tests_cant": "all real levels", "anchors": ["src/fastprof/scans.py:PLRScan1D.__init__", "src/fastprof/scans.py:PLRScan1D.cl", "src/fastprof/scans.py:PLRScan2D.__init__"]}
{"id": "C75", "title": "Scanned parameters and two-dimensional best fit", "statement": "A raster with at least two points runs over the parameters common to its hypotheses (none if they differ); a scan runs over the requested parameters, by name or by position, and unknown names raise (NameError); the best fit of a two-dimensional scan falls back to the raster point with the smallest value. A raster of a single point has no parameter to scan.", "quantifier": "all rasters, names and positions", "why_tests_cant": "all names and rasters", "anchors": ["src/fastprof/scans.py:Scan.find_poi", "src/fastprof/scans.py:PLRScan2D.best_fit"], "intended": "A scan runs over the requested parameters of interest, by name or by position, and refuses unknown ones; the best fit of a two-dimensional scan falls back to the raster point with the smallest value."}
{"id": "C76", "title": "t_mu scans use each point's own fits", "statement": "In its default mode the t_mu calculator gives each hypothesis twice the difference between its own fixed and free fits, and the chi-squared p-value for its number of parameters, whatever other hypotheses are in the scan; in single mode all points share one free fit; unknown modes are refused.", "quantifier": "all models, fit outcomes, lists of hypotheses", "why_tests_cant": "must hold for every list of hypotheses and every history of the shared minimizer", "anchors": ["src/fastprof/calculators.py:TMuCalculator.compute_fast_results"]}
{"id": "C77", "title": "Stored p-values belong to the stored test statistics", "statement": "At every point returned by a calculator the p-value, CLs and CLb are those of the stored test statistic, best fit and Asimov value, and the stored fits are those of the minimizer. For a single test t_mu is the computed one and is never negative; in a raster t_mu is recomputed as twice the difference of the stored likelihoods, and can be negative (witness).", "quantifier": "all models, datasets, hypotheses, calculator types and outcomes of the fits", "why_tests_cant": "must hold for every fit outcome", "anchors": ["src/fastprof/calculators.py:TestStatisticCalculator.compute_fast_q", "src/fastprof/calculators.py:TestStatisticCalculator.compute_fast_results", "src/fastprof/calculators.py:QMuCalculator.fill_pv", "src/fastprof/calculators.py:QMuTildaCalculator.fill_pv"], "intended": "At every point returned by a calculator the p-value, CLs and CLb are those of the stored test statistic, best fit and Asimov value, and t_mu is never negative."}
{"id": "C78", "title": "Calculators honour bounds and hypothesis formats", "statement": "Bounds set on the minimizer are used in single tests. The t_mu calculator replaces them by those of the model in every raster computation, and accepts only hypothesis objects: a plain dictionary raises TypeError.", "quantifier": "all models, bounds and hypotheses", "why_tests_cant": "all bound values and formats", "anchors": ["src/fastprof/calculators.py:TMuCalculator.compute_fast_results", "src/fastprof/calculators.py:TestStatisticCalculator.compute_fast_plr"], "intended": "Bounds set on the minimizer apply to the fits made by the calculators, and hypotheses may be given as objects or plain dictionaries."}
{"id": "C79", "title": "A merged model can be saved and reloaded", "statement": "The markup saved from a model obtained by merging channels is always rejected by the loader (TypeError), because its description is the verbosity level; with the description replaced by a string it loads into the same model.", "quantifier": "all merged models, all documents; reloading for models that can be saved", "why_tests_cant": "all models and options", "anchors": ["src/fastprof/model_tools.py:ChannelMerger.merge", "src/fastprof/core.py:Model.load_dict", "src/fastprof/core.py:Model.fill_dict"], "intended": "The markup saved from a model obtained by merging channels can be loaded into a model."}
{"id": "C80", "title": "Merging channels leaves the original model unchanged", "statement": "Merging channels leaves the channels that are not merged, and the names, normalizations and yields of all samples, of the original model unchanged; the impacts of the merged samples of the original model are overwritten, so that it may not be usable any more (witness).", "quantifier": "all models and lists of channels for which the merge succeeds", "why_tests_cant": "aliasing between the two models for every sample layout", "anchors": ["src/fastprof/model_tools.py:ChannelMerger.merge", "src/fastprof/model_tools.py:ChannelMerger.check"], "intended": "Merging channels returns a new model; the channels, samples, yields, normalizations and impacts of the original model are as before the call."}
{"id": "C81", "title": "The likelihood is the product of the channel likelihoods and of the constraints", "statement": "For any model, dataset and parameter values with positive expected yields in the Poisson bins, the negative log-likelihood returned by Model.nll is, up to the documented reference offset, the sum over the Poisson bins of the Poisson terms, plus one half of the chi-square of each Gaussian channel computed with the inverse covariance of that channel alone (no cross terms between channels), plus one half of the squared pulls of the constrained NPs; the expected yield of each bin is that of its own channel.", "quantifier": "all models, datasets, POI and NP values", "why_tests_cant": "A test fixes a model; the decomposition has to hold for every combination of channel kinds, numbers of bins, and constrained or free NPs.", "anchors": ["src/fastprof/core.py:Model.nll", "src/fastprof/core.py:Model.set_internal_vars"]}
{"id": "C82", "title": "Reparameterization adds names once and replaces exactly the matching normalizations", "statement": "add_pois and add_expressions append the given objects under their own names, refuse with KeyError a name already used by an object of the same kind (including earlier in the list), and change nothing else; a POI with the name of an NP is accepted. update_norms gives a new normalization to exactly the samples matched by one entry, leaves the others unchanged, keeps nominal normalization, yields and impacts, and raises KeyError exactly when a sample is matched by several entries.", "quantifier": "all models, lists of new POIs and expressions, and sets of channel/sample patterns", "why_tests_cant": "Which names collide and which patterns overlap depends on the whole model and the whole list; tests exercise one model.", "anchors": ["src/fastprof/model_tools.py:ModelReparam.add_pois", "src/fastprof/model_tools.py:ModelReparam.add_expressions", "src/fastprof/model_tools.py:ModelReparam.update_norms"], "intended": "ModelReparam.add_pois and add_expressions append the given objects under their own names, refuse with KeyError a name already used by an object of the same kind (including earlier in the list), and change nothing else; a name used by another parameter should be refused too. update_norms gives a new normalization to exactly the samples matched by one entry, leaves the others unchanged, keeps nominal normalization, yields and impacts, and raises KeyError when a sample is matched by several entries."}
{"id": "C83", "title": "POI declarations on the command line", "statement": "A POI declaration name=value:min:max gives one POI under the name written (which must be a POI of the model when this is checked), with the value and range written, a field being unset if it is empty; name=a:b is read as min:max without value, and name=value is refused.", "quantifier": "all specifications and models", "why_tests_cant": "all declaration strings, with any combination of omitted fields", "anchors": ["src/fastprof_utils/tools.py:process_pois"], "intended": "A POI declaration par=value[:min][:max] gives one POI per assignment, under the name written (which must be a POI of the model when this is checked), with the value and range written, and with a field unset if it is empty or omitted."}
{"id": "C84", "title": "pyhf conversion keeps the observed data", "statement": "The data section written by the pyhf conversion loads into the converted model and gives, in the bins of every channel, the observed counts of the pyhf file, whatever the order in which the observations are listed, and auxiliary observations at the nominal values of the nuisance parameters.", "quantifier": "all pyhf documents (numbers of channels, samples and bins, modifiers, observations in any order) whose conversion and loading succeed", "why_tests_cant": "the placement of counts depends on the channel order, the observation order and the number of bins of every channel; finitely many examples cannot cover them", "anchors": ["src/fastprof_import/convert_pyhf_json.py:run", "src/fastprof/core.py:Data.load_dict"]}
{"id": "C85", "title": "What the minimizer hands to the optimization routine", "statement": "For every model, dataset and hypothesis, the optimization is started from the initial (or given) values of exactly the free POIs, in the order of the model, with the range of each one, and the function that is minimized gives at every point the negative log-likelihood profiled over the nuisance parameters at that value of the free POIs, the fixed POIs keeping their value of the hypothesis; the analytic gradient is used exactly when it is available and not switched off; the result is the one of the optimization. A range given for a nuisance parameter is counted as a free POI and makes the minimization fail.", "quantifier": "all models, datasets, hypotheses, initial values, ranges on POIs, and points in the POI space", "why_tests_cant": "Tests run a few fits and compare the minimum; they do not see the objective and bounds handed to the optimizer for all models and hypotheses.", "anchors": ["src/fastprof/minimizers.py: POIMinimizer.minimize", "src/fastprof/minimizers.py: POIMinimizer.objective"], "intended": "For every model, dataset and hypothesis, the optimization is started from the initial (or given) values of exactly the free POIs, in the order of the model, with the range of each one, and the function that is minimized gives at every point the negative log-likelihood profiled over the nuisance parameters at that value of the free POIs, the fixed POIs keeping their value of the hypothesis; the analytic gradient is used exactly when it is requested."}
{"id": "C86", "title": "Pseudo-data follow the model", "statement": "Generated pseudo-data consist of one Poisson draw per Poisson bin with the expected yield of that bin as mean, one multivariate draw for all Gaussian bins with their expected yields as means, and for each constrained NP an auxiliary observable drawn around the value of the NP with the unscaled width of its constraint; free NPs get 0. The constraint term of the likelihood at the generation point is therefore half the sum of the squared standard draws times the variations: standard for unit variations only. The multivariate draw uses the inverse covariance as covariance, so Gaussian pulls are not standard (witness).", "quantifier": "all models, parameter values and sequences of random draws", "why_tests_cant": "The output is random: a test sees a few draws, and a wrong width or covariance for some NPs or channels only shows in distributions.", "anchors": ["src/fastprof/core.py: Model.generate_data", "src/fastprof/base.py: ModelNP.generate_aux"], "intended": "For every model and parameter values, generated pseudo-data consist of one Poisson draw per Poisson bin with the expected yield of that bin as mean, draws for the Gaussian channels with the covariance of the likelihood, and for each constrained NP an auxiliary observable drawn around the value of the NP with the width of its constraint, so that the constraint terms of the likelihood at the generation point are half the squares of standard normal draws; free NPs get 0."}
{"id": "C87", "title": "Covariance, parabolic errors and correlations of the POIs", "statement": "Where the matrix of second derivatives of the likelihood with respect to the POIs is positive definite, the covariance matrix is its inverse and is symmetric, the parabolic errors are positive and their squares are the variances (1/sqrt of the second derivative for one POI), and the correlation matrix has ones on the diagonal, is symmetric, has elements strictly between -1 and 1 elsewhere, and reproduces the covariance when multiplied by the errors.", "quantifier": "all models, datasets, parameter values and numbers of POIs", "why_tests_cant": "Bounds and symmetry for all models and any number of POIs; tests check a few matrices.", "anchors": ["src/fastprof/core.py: Model.covariance_matrix", "src/fastprof/core.py: Model.parabolic_errors", "src/fastprof/core.py: Model.correlation_matrix"]}
{"id": "C88", "title": "Changing the constraints of a model", "statement": "Setting the constraint of an NP (or of all NPs) raises AttributeError for every model with NPs, and leaves a model without NPs unchanged.", "quantifier": "all models, NP names and values", "why_tests_cant": "It must hold for every model and NP.", "anchors": ["src/fastprof/core.py: Model.set_constraint"], "intended": "Setting the constraint of an NP (or of all NPs) changes exactly that constraint (or all) and updates the likelihood."}
{"id": "C89", "title": "Files hold what was last saved", "statement": "Loading a file with the flavor used for saving gives the object last saved under that name by a completed save; a save touches no other file; a process killed during a save leaves the file as it was or with the beginning of the new contents; a model and a dataset saved together are both recovered from the common file. A save starts by emptying the file, also with an unsupported flavor, and an explicit yaml flavor is not remembered by a file name without that extension.", "quantifier": "every file system, every history of saves, every kill point of a save, every model and dataset of C17 and C28, any json/yaml library that parses back what it wrote", "why_tests_cant": "tests write a few files and never kill the process in the middle of a write", "anchors": ["src/fastprof/base.py:Serializable.load", "src/fastprof/base.py:Serializable.save", "src/fastprof/base.py:Serializable.guess_flavor", "src/fastprof/core.py:Data.save_with_model"], "intended": "Loading a file with the flavor used for saving gives the object last saved under that name by a completed save; a save touches no other file; a process killed during a save leaves the file as it was or with the beginning of the new contents; a model and a dataset saved together are both recovered from the common file."}
{"id": "C90", "title": "Collected results are aligned with their positions", "statement": "collect_results writes for each key the positions whose file has a numerical result (errors and bands included when requested), in order, with the i-th result taken from the file of the i-th position; missing or incomplete files are skipped. If every file with bands also has a numerical result, each band has one value per position, in order; otherwise the bands are shifted (witness for all file contents of that kind).", "quantifier": "every list of positions and keys, any contents or absence of each file, with or without errors and bands", "why_tests_cant": "the alignment depends on which files are missing or incomplete, and there are exponentially many cases", "anchors": ["src/fastprof_utils/collect_results.py:run"], "intended": "collect_results writes for each key the positions whose file has a numerical result (errors and bands included when requested), in order, with the i-th result taken from the file of the i-th position; missing or incomplete files are skipped; each band has one value per position."}
{"id": "C91", "title": "Parameter bounds given on the command line", "statement": "The option --bounds with name=[min]:[max] or name=value items is read as exactly these bounds, in order, a missing end meaning no bound on that side; these bounds replace those of the model for the named parameters and only for them; ends that are not numbers are refused. Items with extra ':' fields are silently ignored, the documented '#' separator is refused, and name=: makes the parameter fixed.", "quantifier": "every list of items, any names and numbers without separators", "why_tests_cant": "the space of option strings is infinite; malformed ones are the interesting ones", "anchors": ["src/fastprof_utils/compute_limits.py:run", "src/fastprof_utils/compute_fast_limits.py:run", "src/fastprof_utils/test_hypos.py:run", "src/fastprof/minimizers.py:POIMinimizer.set_pois"], "intended": "The option --bounds with name=[min]:[max] or name=value items is read as exactly these bounds, in order, a missing end meaning no bound on that side; these bounds replace those of the model for the named parameters and only for them; anything else is refused."}
{"id": "C92", "title": "Limits are computed from the current inputs", "statement": "A run of the limit program computes its results from its inputs if no raster file exists or if overwriting is requested, and otherwise uses the results of the last run that did, whatever its inputs were.", "quantifier": "every history of runs with the same output name and arbitrary inputs", "why_tests_cant": "it is about histories of runs, not single runs", "anchors": ["src/fastprof_utils/compute_fast_limits.py:run", "src/fastprof_utils/test_hypos.py:run"], "intended": "A run of the limit program uses results computed for its own inputs: it computes them if no raster file exists or if overwriting is requested, and otherwise reuses the file of an earlier run with the same output name."}
{"id": "C93", "title": "Position specifications and generated commands", "statement": "The position specification vmin:vmax:nvals gives nvals equidistant values from vmin to vmax, :int their integer parts, :log (vmin other than 1) nvals+1 values in geometric progression from vmin to vmax, :logint the rounded midpoints of these, and v1,v2,... the listed values; :log from 1 is refused and an unknown fourth field is taken as a listed value. One command is produced per position, in order, with every marker replaced by the value.", "quantifier": "every specification, every pattern and any list of positions", "why_tests_cant": "infinitely many patterns and specifications", "anchors": ["src/fastprof_utils/iterate.py:run", "src/fastprof_utils/collect_results.py:run"], "intended": "The position specification vmin:vmax:nvals gives nvals equidistant values from vmin to vmax, :int their integer parts, :log nvals values in geometric progression, and v1,v2,... the listed values, other forms are refused; one command is produced per position, in order, with every marker replaced by the value."}
{"id": "C94", "title": "Removing expressions from a model", "statement": "When removing expressions by name or pattern succeeds, exactly the expressions of these names, and for a pattern that is not a name those whose name begins with a match, are removed; nothing else changes, no sample was normalized to a removed expression, and the predictions are those of the original model wherever both can be evaluated. A specification that designates nothing raises KeyError; an expression that is the normalization of a sample is not replaced by the value given but makes the call raise; other expressions that refer to a removed one are left as they are, so that the model can no longer be completed.", "intended": "Removing expressions replaces them by the given values in the normalizations and in the other expressions.", "quantifier": "all models, specifications, values and parameter values", "why_tests_cant": "every model, every pattern and every parameter value", "anchors": ["src/fastprof/model_tools.py: ModelReparam.remove_expressions, remove_from_norms"]}
{"id": "C95", "title": "Asymptotic densities are the slopes of the p-values", "statement": "For q_mu, and for q~_mu with a positive threshold, the asymptotic density reported at any non-zero value of the test statistic is non-negative and is minus the derivative of the asymptotic p-value reported by the same object; at zero the q_mu density is reported as 0 although the p-value has no derivative there. Without argument the density is that of the stored test statistic. With a threshold of zero, the q~_mu density and p-value raise for non-negative values. The t_mu method returns a distribution object and not a number.", "intended": "For every test statistic, the asymptotic density is minus the derivative of the asymptotic p-value.", "quantifier": "all test statistic objects with a non-centrality parameter, all real values of the test statistic", "why_tests_cant": "a derivative at every real value for every fit result", "anchors": ["src/fastprof/test_statistics.py:TMu.asymptotic_pdf, QMu.asymptotic_pdf, QMuTilda.asymptotic_pdf, asymptotic_pv"]}
{"id": "C96", "title": "Conversion of a workspace channel tabulates the yields of the workspace", "statement": "Filling the yields of a channel leaves every variable of the workspace at its value; each sample gets, in each bin, the part of the channel yield that its normalization parameter adds (the default sample also the yield left with all these parameters at zero), and for each nuisance parameter, variation and bin the relative change of that part with the parameter moved by the variation, cut at the range of the variable, everything else being nominal; with validation points, the ratio of yields at each point. Without rescaling of the variations nothing fails. If the channel yield is a sum of terms, each vanishing with its own parameter, the samples add up to the channel. Samples that share a parameter each get the yield of both, and variations that leave the range of the parameter are tabulated under their full size.", "intended": "Filling the yields of a channel leaves the workspace unchanged, and tabulates for each sample its nominal yields and their relative variations; the samples add up to the channel.", "quantifier": "all channels (any yield functions of the workspace variables), sample lists, nuisance parameters, variations, validation points, bins and variable values", "why_tests_cant": "the yields are arbitrary functions of the workspace, and the order of settings and restorings must be right for every list of samples and parameters", "anchors": ["src/fastprof_import/convert_ws.py:fill_channel_yields, fill_yields, save_normpars, save_nominal, set_normpars, integral"]}
{"id": "C97", "title": "Packing of impacts", "statement": "For per-bin tables with the same variations, packing does not fail and gives: no impact only if every average over the bins vanishes within the tolerance, a single table only if every bin is within the tolerance of the average, which is then what is stored, and the per-bin tables otherwise. For each bin and variation the packed impact differs from the original by at most tol + tol/(1-delta), tol + delta(|x|+tol) and delta|x| in the three cases, where delta is the relative rounding. An impact larger than the tolerance can be dropped.", "intended": "Packed impacts differ from the original ones by at most the tolerance.", "quantifier": "all lists of tables, all tolerances and roundings", "why_tests_cant": "all real tables and any number of bins", "anchors": ["src/fastprof_import/convert_ws.py:pack"]}
{"id": "C98", "title": "A converted and loaded channel reproduces the workspace", "statement": "Converting a channel, packing its impacts, writing a sample and loading it in fastprof succeeds, and the loaded sample has the (rounded) yields of the workspace, the normalization parameter with its nominal value if it is a parameter of the model (1 otherwise), and for each nuisance parameter and variation the relative change of its yields up to the packing error; without packing, the yields interpolated by fastprof (linear, or exponential within its limits) at each tabulated variation are those of the workspace. Samples whose parameter multiplies their yields follow the workspace for any value of it. A sample whose parameter is zero at conversion is left out; a default sample with a normalization parameter also scales the remaining yield of the channel.", "intended": "Converting a channel and loading it in fastprof gives samples that reproduce the yields of the workspace at nominal values, at the tabulated variations and for any value of the normalization parameters.", "quantifier": "all channels, samples, nuisance parameters, sets of positive variations, tolerances and roundings", "why_tests_cant": "composition of two programs over arbitrary yield functions", "anchors": ["src/fastprof_import/convert_ws.py:run, fill_channel_yields, pack", "src/fastprof/sample.py:Sample.load_dict, impact, impact_coefficients, normalization"]}
{"id": "C99", "title": "Validation rows of the samples of a converted model", "statement": "With at most one sample without yields in a channel, the rows of the validation file are those of the samples of the model, in order; with two or more, the row of a sample that is not in the model stays in the file.", "intended": "The rows of the validation file are those of the samples of the model, in order.", "quantifier": "all channels, any number of samples with and without yields", "why_tests_cant": "any number of samples in any order", "anchors": ["src/fastprof_import/convert_ws.py:run"]}
{"id": "C100", "title": "Bin specifications of the converter", "statement": "The specification xmin:xmax:n gives n equidistant edges from xmin, that is n-1 bins, of width (xmax-xmin)/n, the last one ending one width before xmax; with n+ the n edges go from xmin to xmax. With :log the ratio of consecutive edges is constant, and xmin = 1 is refused. Ranges joined by ~ where each starts at the end of the previous one, the last one with +, give strictly increasing edges from the first start to the last end, including the end of every range.", "intended": "The specification xmin:xmax:n gives n bins of equal width from xmin to xmax, and :log bins of equal ratio; ranges are joined by ~.", "quantifier": "all specifications, any number of ranges", "why_tests_cant": "any number of ranges and bins", "anchors": ["src/fastprof_import/convert_ws.py:run"]}
{"id": "C101", "title": "The file written by prune_model", "statement": "prune_model writes one file, the given name with .json appended unless it already ends so, and touches no other. Loading it gives exactly the pruned model, and a dataset with the counts of the input truncated to integers and the same auxiliary observations. With --nps var=val matching one NP, the model of the output has the other NPs unchanged and predicts in every bin what the input model predicts with this NP at val. Without --data-file, an input file without a dataset is refused with KeyError and nothing is written.", "intended": "prune_model writes the pruned model, and its dataset if there is one.", "quantifier": "all model files, datasets, options, file systems and parameter values", "why_tests_cant": "any model, any combination of options", "anchors": ["src/fastprof_utils/prune_model.py:run"]}
{"id": "C102", "title": "The file written by merge_models", "statement": "merge_models writes the output file and no other. Loading it gives a model with the POIs, expressions, NPs and auxiliary observables of the first file, and the channels of all files in order; if the files share parameters then every channel predicts in every bin, for every parameter value, what it predicts in its own file. Files are taken in the given order. With --sort, names differing by a number standing alone between non-word characters are put in increasing order of this number, and sorting never loses or repeats a file. Each name is expanded as a file pattern, one that matches nothing is skipped without error; a name starting with a star is not expanded and its file is then not found. Numbers next to a letter or an underscore are compared as text. Comparing a name starting by a number with one starting by a word raises TypeError.", "intended": "merge_models writes a model with the channels of all the files given, missing files are errors, --sort sorts numerically.", "quantifier": "all lists of files, models, file systems, options and parameter values", "why_tests_cant": "any number of files, any model contents, any file names", "anchors": ["src/fastprof_utils/merge_models.py:run"]}
{"id": "C103", "title": "The files written by merge_channels", "statement": "The merge specification name1=chan1[:min:max],chan2...~name2=... is parsed back to exactly the channel lists and ranges it was written from; ranges given for only part of the channels are refused with ValueError, and a channel not in the model with an exception before anything is written. The command writes <output>.json and, when a dataset is given, <output>_data.json, and touches no other file. The data file loads, in the merged model, to the merged data with counts truncated to integers. The model file holds the merged model, but its description field holds the integer verbosity level, so that it cannot be loaded: every attempt raises TypeError.", "intended": "merge_channels writes files that load to the merged model and data.", "quantifier": "all model and data files, merge specifications, options and file systems", "why_tests_cant": "any model, any specification text", "anchors": ["src/fastprof_utils/merge_channels.py:run", "src/fastprof/model_tools.py:ChannelMerger"]}
{"id": "C104", "title": "The file written by reparam_model", "statement": "With --remove, the output file is the only one written and holds the model without the POIs named and no others; it predicts in every bin what the input predicts with these POIs at their initial values, whatever the other parameters. Names that are not those of POIs are refused with KeyError. When an option file lists POIs, the POIs of the output are those of this list in this order whatever the other options; POIs given with --add and absent from the list are dropped, and with --remove the POIs in neither list disappear without being replaced in the expressions that use them. On the command line, the replacement value of a POI used in a linear combination, numeric normalizations and formulas are all refused with an exception. If the option file cannot be read, or its normalizations are invalid, the command returns normally and writes nothing.", "intended": "reparam_model applies all the changes asked for on the command line and in the option file, or fails with an error.", "quantifier": "all model files, option files, options, file systems and parameter values", "why_tests_cant": "any model, any combination of options", "anchors": ["src/fastprof_utils/reparam_model.py:run", "src/fastprof/model_tools.py:ModelReparam"]}
{"id": "C105", "title": "What poi_scan reports", "statement": "A poi_scan run without a stored raster over one parameter computes t_mu at the given hypotheses for the model and dataset, with the free fit in the chosen mode, and writes a results file with one entry for each requested level and no other. The entry of an integer level n is for t_mu = n*n, the one of any other number for the t_mu quantile of this confidence level; it holds the confidence level, the parameter name and unit, and the central value and uncertainties of the interval of the scan at that level. The dataset is the one of --data-file, else the expected dataset for the values of --asimov with all nuisance parameters and auxiliary observables at 0, else the one of the model file.", "quantifier": "all models, datasets, hypotheses, levels, options, file systems, and behaviours of the numerical libraries", "why_tests_cant": "any model, any list of hypotheses and levels, any outcome of the fits", "anchors": ["src/fastprof_utils/poi_scan.py:run", "src/fastprof/calculators.py:TMuCalculator.compute_fast_results", "src/fastprof/scans.py:PLRScan1D.interval"]}
{"id": "C106", "title": "Stored rasters of poi_scan", "statement": "After a successful run, repeating the same command reuses the stored raster and leaves every file byte for byte as it was. A stored raster for other hypotheses, or for another number of them, ends the run with KeyError before anything is written; with --overwrite, and always with --force-computation, the run is exactly the one that finds no raster. A raster file that cannot be parsed ends the run with this error and nothing is written. Only the hypotheses are compared: with a stored raster for them the results do not depend on the dataset, the predictions of the model, nor the other options of the computation. If a hypothesis is given twice, the run succeeds but repeating the same command fails. Forcing the computation without --hypos computes nothing: with mode all the stored raster is replaced by one without points and the run ends with IndexError.", "intended": "The results are those of the command whether or not a raster is stored, and repeating a command gives the same results.", "quantifier": "all pairs of runs, models, datasets, hypotheses, options and file systems", "why_tests_cant": "histories of runs with any change of options and files between them", "anchors": ["src/fastprof_utils/poi_scan.py:run", "src/fastprof/fit_data.py:Raster"]}
{"id": "C107", "title": "The options of poi_scan", "statement": "Whatever happens, poi_scan changes no file other than <output>_raster.json and <output>_results.json. Hypotheses on more than two parameters are refused with ValueError and nothing is written. The option --regularize always fails with AttributeError. The documented mode best_fixed is refused with ValueError, and so is a list of hypotheses separated by # as documented. With --show-timing a stored raster cannot be used (NameError). A level that is not a number ends the run normally without results. A single hypothesis, or hypotheses on different parameters, end the run with IndexError after the raster has been written. Scans of two parameters write an empty results file. Values of nuisance parameters in --asimov are accepted and ignored.", "intended": "The options do what their documentation says, and invalid ones are reported before anything is computed.", "quantifier": "all options, models, datasets and file systems", "why_tests_cant": "any combination of options and inputs", "anchors": ["src/fastprof_utils/poi_scan.py:make_parser", "src/fastprof_utils/poi_scan.py:run"]}
{"id": "C108", "title": "Sampling distributions of a limit computation", "statement": "After Samples.generate_and_save(ntoys) in a directory with neither samples nor locks, the p-value at every hypothesis is the mid p-value of the values its own sampler generated; these values are in the file of the hypothesis, no lock remains and no other file changes. A repeated or resumed run (with break_locks) uses the values in the existing files, whatever the samplers would generate, generates only the missing ones, and writes nothing when all exist. A later session that loads the files gets the same p-values. The files of the CL_{s+b} and CL_b samples of a limit are never the same, and the CLs value is the ratio of the two mid p-values.", "intended": "generate() produces the distributions in memory; load() reports a missing file; every hypothesis has a distribution after generate_and_save; an interrupted production does not block the following ones; each hypothesis has its own samples. All false in the code.", "quantifier": "all sets of hypotheses, samplers, numbers of toys, file names, contents of the directory, and points of interruption between hypotheses", "why_tests_cant": "the result depends on the initial content of the directory and on which hypotheses were already produced, for any number of hypotheses and any generated values", "anchors": ["src/fastprof/sampling.py:Samples.__init__", "src/fastprof/sampling.py:Samples.generate_and_save", "src/fastprof/sampling.py:Samples.load", "src/fastprof/sampling.py:Samples.generate", "src/fastprof/sampling.py:CLsSamples", "src/fastprof_utils/compute_limits.py:run"]}
{"id": "C109", "title": "Asymptotic limits of compute_fast_limits", "statement": "A successful run of compute_fast_limits without toys and without a stored raster writes <output>_raster.json with one point per hypothesis, in order, each with the p-values of the requested statistic, and <output>_results.json with the confidence level, the name and unit of the parameter of interest, and the asymptotic CLs and CLs+b limits: the first crossing of the 5% level by the interpolated curve of the cls (pv) values of those points, or three nulls if there is none. It changes no other file, reads only the model, the data and the raster file, and repeating it leaves every file the same. With a data file the data come from it, else with --asimov they are the expected yields at the given parameter values with nuisance parameters at 0, else they come from the model file. With -x the raster is computed anew. An unknown statistic or more than one parameter of interest is refused with ValueError and nothing is written.", "intended": "The limit is computed at the requested confidence level, for the requested hypotheses, data and bounds, also when a raster file exists; options do what their help says. False in the code.", "quantifier": "all models, datasets, lists of hypotheses, options and file contents", "why_tests_cant": "holds for any number of hypotheses, any model and data, and any state of the directory", "anchors": ["src/fastprof_utils/compute_fast_limits.py:run", "src/fastprof/scans.py:UpperLimitScan", "src/fastprof/calculators.py:TestStatisticCalculator.compute_fast_results"]}
{"id": "C110", "title": "Limits from toys are those of the sample files, and a rerun reproduces them", "statement": "compute_fast_limits with --ntoys N on a model with one parameter of interest, in a directory where any part of the samples may already be there: when the run ends without an error, every hypothesis has a sample file for CLs+b and one for CLb (the one that was there before the run, else the N toys of this run, sorted); the CLs+b and CLb p-values of the hypothesis are the mid p-values of the first N values of these files (those not above --truncate-dist) at the asymptotic p-value, with the binomial error; CLs is their ratio with the error propagated; the results file has the limits at the 5% crossing of these curves and of the curves one error up and down, the asymptotic ones, and for every band asked for the crossing of the quantiles of the CLs values that the CLb sample gives. A second run with the same options changes no file, whatever toys it would draw. Intended: a sample that another run has locked is skipped. In fact the run fails after the others have been generated, and no results are written.", "quantifier": "all models with one parameter of interest, all hypotheses that differ in the first six digits, all options, all states of the sample directory, all toys", "why_tests_cant": "The samples are random and there are unboundedly many states of the directory (present, missing, locked, longer than asked) for every hypothesis.", "anchors": ["src/fastprof_utils/compute_fast_limits.py: run", "src/fastprof/sampling.py: Samples.generate_and_save, CLsSamples.pv, CLsSamples.bands, CLsSamples.cut", "src/fastprof/scans.py: UpperLimitScan.limit"]}
{"id": "C111", "title": "compute_limits: the limits of a file of fits are those of its p-values and of the stored samples, and nothing else is changed", "statement": "A successful run of compute_limits with toys writes one file, <output>_results.json, which contains the confidence level asked for, the name and unit of the POI, the limits (95%) of the p-value and CLs curves of the fits in the fits file (tmu = twice the difference of the negative log-likelihoods of its fits, tmu_A0 from its Asimov part), the same limits for the fits of the linear model to the dataset, those of the p-values from the stored samples of each hypothesis with their errors, and one expected limit per band; all other files and the samples stay as they are. An unknown statistic or several POIs in the hypotheses are refused with a ValueError before anything is written.", "intended": "The documented behaviour is that the sampling distributions are generated when missing, that --regularize, --sethypo, --asimov, --bounds, --iterations, --data-file change what they name, and that the results are stored also without toys. The code does none of these: the bounds given to the samplers cannot be used in a fit (AttributeError at the first toy, and the lock stays), Model has no set_gamma_regularization, POIHypo has no dict(), the Asimov state is given a list of lists, bounds and iterations are never used, the dataset only enters the results of the linear model, a fits file with a single hypothesis ends in an IndexError, and without toys the results file is not written.", "quantifier": "for all models, fits files, datasets, stored samples, options and file systems", "why_tests_cant": "A test runs one fits file; the claims relate the stored numbers to all fits files, samples and option values, and say that some options have no effect whatever their value.", "anchors": ["src/fastprof_utils/compute_limits.py: run", "src/fastprof/fit_data.py: Raster.load, load_dict, set_poi_values_and_ranges", "src/fastprof/calculators.py: recompute_raster, fill_all_pv", "src/fastprof/samplers.py: OptiSampler, SamplerObject"]}
{"id": "C112", "title": "fit_model: the results file holds the best fit of the model to the dataset, its parabolic errors and correlations, and nothing else is changed", "statement": "A successful run of fit_model with an output file writes one file, <output>.json, whose entries are min_nll, min_pars, correlation_matrix and one entry for each POI: min_pars gives the values of all parameters at the best-fit point (the NPs as unscaled values, nominal + x * variation), min_nll is the profiled negative log-likelihood at that point, which is not above that of any other POI values within their ranges, each POI entry gives its best-fit value and, as its uncertainty, the square root of the diagonal element of the inverse of the Hessian there, and the correlation matrix is that inverse normalized to its diagonal. The model is the one in the model file with the cutoff and the ranges asked for; the dataset is the data file, else the Asimov dataset of --asimov, else the one in the model file. Testing a hypothesis does not change what is stored, and all other files stay as they are. A fit that does not converge ends in a TypeError and nothing is written.", "intended": "The documented behaviour is that --iterations and --regularize change the fit and that the results are stored in any case. The code ignores --iterations, raises an AttributeError for --regularize (Model has no set_gamma_regularization), writes nothing if the test of the hypothesis fails or if the covariance matrix cannot be computed, and overwrites the results of a POI called correlation_matrix.", "quantifier": "for all models, datasets, options, hypotheses, file systems, minimizers and matrix inverters that satisfy their specifications", "why_tests_cant": "A test runs one fit; the claims relate the stored numbers to the likelihood of every model and dataset and to all points of the POI ranges, and say that one option has no effect whatever its value.", "anchors": ["src/fastprof_utils/fit_model.py: run", "src/fastprof/minimizers.py: OptiMinimizer.minimize, tmu", "src/fastprof/core.py: Model.covariance_matrix, correlation_matrix, parabolic_errors, Parameters.dict", "src/fastprof_utils/tools.py: process_setvals, process_setranges"]}
{"id": "C113", "title": "check_model: the table and the plots compare, hypothesis by hypothesis, the p-values of the fits file with those of the linear model", "statement": "A successful run of check_model prints one line for each hypothesis of the fits file, in its order, with the value of the POI and, for each of the p-value, CLs and CLb, the value for the fits of the file (tmu = twice the difference of their negative log-likelihoods, tmu_A0 from its Asimov part) next to the one for the fits of the linear model to the dataset at the same hypothesis; without --batch-mode the same p-values and CLs values, in the same order, are the curves of <output>_clsb.pdf and <output>_cls.pdf, and with it nothing is plotted and the table is the same. The two values agree whenever the two fits give the same test statistics and best-fit value. The linear model is that of the model file with the cutoff asked for, fitted with the number of iterations asked for and within the ranges of its POIs to the data file, else the Asimov dataset of --asimov, else the dataset of the model file. An unknown statistic or several POIs are refused with a ValueError.", "intended": "The documented behaviour is that --setrange and --regularize change the model and that any fits file can be plotted. The code raises a NameError for --setrange (process_setranges is not imported) and an AttributeError for --regularize, and cannot plot a fits file with a single hypothesis.", "quantifier": "for all models, fits files, datasets, options and file systems", "why_tests_cant": "A test runs one fits file; the claims pair the two sets of p-values for all files, models and datasets, whatever their number and order of hypotheses.", "anchors": ["src/fastprof_utils/check_model.py: run", "src/fastprof/fit_data.py: Raster.print, key_value, load, set_asimov", "src/fastprof/calculators.py: recompute_raster, fill_all_pv"]}
{"id": "C114", "title": "Impacts of the nuisance parameters on a POI", "statement": "PlotImpacts.impacts gives one entry for each NP asked for, with its best-fit value and the change of the POI in two fits of the model without this NP: the model fitted predicts in every bin what the full model predicts with the NP kept at nominal + (best fit +- 1) * variation, these numbers being used in units of the variation, on the same counts and the same auxiliary observations of the other NPs; entries come in decreasing order of half the distance between the two changes, ties in the order of the NPs. These are the intended values, best fit +- 1, exactly for the NPs of nominal value 0 and variation 1. The minimizers of the package cannot be used: their clone method accepts no argument, so that no impact is computed, and plot_impacts ends with an exception without writing any file for every model with a NP.", "intended": "The impact of a NP is the change of the POI when the NP is kept one standard deviation above and below its best-fit value, with the default minimizer as with others.", "quantifier": "all models, datasets, lists of NPs, minimizers, options and file systems", "why_tests_cant": "any model, any values of the NPs and any minimizer", "anchors": ["src/fastprof/plot_tools.py:PlotImpacts.impacts", "src/fastprof/plot_tools.py:PlotImpacts.plot", "src/fastprof_utils/plot_impacts.py:run", "src/fastprof/model_tools.py:NPPruner.remove_nps"]}
{"id": "C115", "title": "The file written by import_snapshot", "statement": "import_snapshot writes one file: read with the flavor given by --markup, it holds exactly the names and values of the real parameters of the snapshot; parameters that are not real are left out. If the ROOT file cannot be opened or lacks the workspace or the snapshot, an exception is raised and nothing is written. An unknown markup is not refused: YAML is written. The extension of the output file is not used: with the default markup a file named .yaml holds JSON.", "intended": "import_snapshot writes the parameter values of the snapshot in the markup asked for, and refuses unknown markups.", "quantifier": "all ROOT files, snapshots, options and file systems", "why_tests_cant": "any snapshot and any combination of options", "anchors": ["src/fastprof_import/import_snapshot.py:run"]}
