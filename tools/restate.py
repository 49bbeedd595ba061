import json,re,glob
W="a model is 'regular' when every sample has one yield, and one impact per bin where impacts are given bin by bin, and, in asymmetric mode, every table has as many positive as negative variations and the first NP has the most variations"
NEW={
"C01":("Saving a model POI to a dictionary and loading it back gives exactly the same POI when minimum, maximum and initial value are set; in every case name, unit, description and every field that is set come back unchanged, and a minimum, maximum or initial value that is unset comes back as 0.",
 "every POI record, every combination of set/unset fields"),
"C06":("At every point where no numerator factor of a product/ratio vanishes, the reported Hessian of every expression is its matrix of second partial derivatives with respect to the POIs; at a vanishing factor the reported Hessian may be undefined (a product x*y at x=0 is a case).",
 "every expression graph (every type but formulas), every parameter point with non-vanishing numerator factors"),
"C07":("Writing any expression that is not a formula to a dictionary and instantiating it again gives the same expression; a formula can never be instantiated again, with or without its type.",
 "every expression of every type"),
"C08":("Whenever replacing a parameter by a value in an expression succeeds, all expressions evaluate as the original ones with the parameter set to that value, the replaced expression no longer depends on the parameter, and a constant returned is that value; replacing a factor of a product raises TypeError, and a missing value is rejected.",
 "every expression graph, every replaced name and value, all values of the other parameters, every successful replacement"),
"C10":("For a table with the same number of distinct positive and negative variations, the computed polynomial coefficients vanish at zero and reproduce the tabulated impact at every tabulated variation (in exponential mode its logarithm, for impact factors between 1/100 and 100, others being clipped to these bounds); with unequal numbers of positive and negative variations reproduction fails (witness).",
 "every sample and parameter, every number of tabulated variations with equal numbers on both sides, any impact values; np.linalg.inv assumed to return an inverse of an invertible matrix"),
"C11":("The impact of a parameter at a variation is the tabulated value (common to all bins, or of each bin) when the variation is in the table under its formatted value, proportional for a single number, zero for a parameter without impacts, and an error for a missing variation; the symmetric impact is half the difference of the +1 and -1 impacts and changes sign when the two are exchanged. Tables keyed 'pos'/'neg' cannot be used for the coefficients.",
 "all samples, parameters, variations and all representations of impacts"),
"C12":("A sample whose normalization has its non-zero nominal value has exactly its nominal yields, and yields scale linearly with the normalization. The nominal normalization is the given one; if none is given it is the number of a numerical norm, the nominal value of the NP that is the norm, and 1 for any other expression (for which nominal yields are then not reproduced: witness).",
 "all samples, norms, parameter values and yields"),
"C14":("Saving the observed counts of a Poisson channel (single-bin, binned, multi-bin) and loading them back returns the same counts when they are integers; other counts are truncated towards zero, by less than 1; a vector of the wrong size is rejected. A Gaussian channel can be saved but its data can never be loaded back.",
 "all channels of all types and all count vectors"),
"C15":("Loading counts into a channel succeeds if and only if the channel name, the number of bins, and their names (or boundaries) match those of the channel in order and every count is a number, and then sets exactly these counts; a failed load raises an error, keeps the number of counts and leaves the counts of all later channels unchanged, but the first bins of the channel itself may already be overwritten (witness).",
 "all channels of all types and all markup data"),
"C16":("In every model that can be built, the bins of the channels occupy consecutive, disjoint ranges that together cover exactly the bins of the model, Poisson channels come first, and extracting a channel from a full vector returns exactly the bins of that channel. A model listing a Gaussian channel before a Poisson one cannot be built.",
 "all models (any number of channels, any bin counts)"),
"C17":("Saving a model and loading it into a new object gives the same name, description, POIs, NPs, auxiliary observables, expressions and channels, and the same internal variables when the options agree, for models with distinct names, all POI fields set, no formula and no Gaussian channel; loading any markup reads everything that is declared. Options and cutoff are not saved, and Gaussian channels come back as Poisson channels.",
 "all models without formulas and Gaussian channels and with all POI fields set; all markup documents for the loading part"),
"C18":("In every regular model ("+W+") the expected yield in every bin is the sum over the samples of its channel of the nominal yield times the relative normalization times the NP impact factor, each sample contributing only to its own channel.",
 "all regular models that can be built with distinct parameter names, all parameter values"),
"C19":("The NP impact factor is 1 at nominal NP values and positive in exponential mode for every model; in every regular model it is the product (sum in linear mode) of the effects of the NPs, using the positive coefficients for positive values and the negative ones otherwise, continuously; it reproduces 1+impact at every tabulated variation (within [1/100,100] in exponential mode) and the symmetric impact in symmetric mode. Models that are not regular violate this (witnesses for each condition). Regular: "+W+".",
 "all models, modes and parameter values"),
"C21":("When the reference yields of the Poisson bins are positive, the offset option subtracts one and the same constant from the negative log-likelihood at all parameter points with positive yields, so that all differences are unchanged, for Poisson and Gaussian channels; with a zero reference yield the offset likelihood is -infinity.",
 "all models with positive reference yields and symmetric inverse covariances, all datasets, all parameter points with positive expected yields, with and without constraints and floor"),
"C22":("For an Asimov dataset generated at a parameter point where the expected yields of all Poisson bins are positive, the likelihood is finite there and no parameter point has a lower negative log-likelihood, with or without offset and constraints; if a bin is empty at the generation point the likelihood is infinite there.",
 "all models (positive semi-definite inverse covariances, positive reference yields if the offset is used), all generation points with positive yields, all parameter points"),
"C23":("For models without Gaussian channels the reported gradient is the vector of partial derivatives of the negative log-likelihood with respect to the POIs wherever the likelihood is finite, with and without offset and constraints; for Gaussian channels it is not (witness: half of the derivative).",
 "all models without Gaussian channels, datasets and parameter points with finite likelihood"),
"C24":("For models without Gaussian channels the reported Hessian is the matrix of second partial derivatives of the negative log-likelihood with respect to the POIs wherever it is finite; it is symmetric for all models; for Gaussian channels it is not the second derivative (witness).",
 "all models without Gaussian channels (all models for symmetry), datasets and parameter points with finite likelihood"),
"C25":("Building a parameter vector for a model yields POI and NP vectors of exactly the sizes of the model or an error (in particular for a missing or null POI), defaults missing NPs to zero; setting a parameter by name changes that parameter only and is read back unchanged, for any history of assignments; a copy is equal. A single number for the NPs is refused with AttributeError.",
 "all inputs to the constructor and all sequences of set operations"),
"C26":("Writing parameters to a dictionary and setting them back from it with the same scaling option gives the same parameters (for non-zero variations in the unscaled form); every parameter is in the dictionary with its value; a dictionary in which a parameter is missing is rejected. With the default arguments of the two functions the round trip fails, the nominal form contains the NPs even when only POIs are requested, and both partial dictionaries and setting from auxiliary observables always raise.",
 "all models with distinct names, all parameter values, all dictionaries"),
"C28":("Loading a dataset gives the same counts and auxiliary observables for any permutation of the channel and auxiliary-observable entries with distinct names; saving then loading a dataset of integer counts of a model without Gaussian channels (distinct auxiliary observables, non-zero variations, zero at NPs without auxiliary observable) gives it back. Fractional counts are truncated.",
 "all models and all permutations; for the round trip all integer datasets of models without Gaussian channels"),
"C31":("After configuring the POIs of a minimizer with non-empty ranges, every initial value is within its bounds, values given within bounds are kept, a fixed POI has a zero-width interval at its value, the other POIs keep the range of the model or the one given; configuring succeeds whenever all ranges are two-sided. A one-sided range raises TypeError, with an inverted range the initial value is outside it, fixing a value through set_constant has no effect on the fit, and unset ranges are treated as fixed.",
 "all models, hypotheses, initial values and bounds"),
"C32":("Whenever t_mu is returned and both stored likelihoods are finite it is the larger of 0 and twice their difference, the likelihoods being those of the minimization with the POIs fixed to the hypothesis and of the free one; it is never negative; a negative difference is retried with the alternative method if there is one. A failed minimization does not give None (a number is still returned), and infinite likelihoods give NaN.",
 "all models, settings, hypotheses and all outcomes of the optimization routine"),
"C34":("A cloned minimizer has the same method, iteration count, floor, rebound count and alternative method as the original; its derivative choice and verbosity are always the default ones.",
 "all configurations"),
"C36":("The asymptotic p-values of q_mu, and of q~_mu with a positive threshold, are strictly between 0 and 1 and strictly decrease when the test statistic increases, and the two branches of q~_mu agree at and below the threshold; a zero threshold (non-positive Asimov t_0) raises ZeroDivisionError.",
 "all test statistic values, hypotheses and non-centralities, every strictly decreasing survival function with values in (0,1) (the normal one is shown to be one)"),
"C38":("CL_s = CL_{s+b}/CL_b is in (0,1] and larger than CL_{s+b} for q_mu and q~_mu as built by the calculators (positive Asimov t_0 for q~_mu), and is 1 when CL_b is 0; for a q~_mu object built by hand with an explicit t_0 it can exceed 1.",
 "all test statistic values and hypotheses handled by the calculators"),
"C40":("The sampling p-value of a tested value is in [0,1], never decreases when the tested value increases, equals the fraction of samples strictly below plus half the fraction equal to it, and does not depend on the order in which the pseudo-experiments were generated, for samples in memory and for files saved with sorting (the default); for files saved unsorted it depends on the order (witness). Its error is positive.",
 "all non-empty sampling distributions and tested values, numpy's binary search included"),
"C41":("The quantile of order f, for every fraction 0 <= f < 1, is one of the values, at most a fraction f of the values are strictly below it and more than a fraction f are at or below it, and quantiles are monotonic in f; the fraction 1 raises IndexError and fractions outside [0,1] are rejected.",
 "all non-empty distributions and all fractions"),
"C42":("Cutting keeps exactly the values within the requested bounds, in order, for every pair of non-zero bounds; a bound equal to zero is ignored.",
 "all distributions and bounds"),
"C43":("Saving then loading a distribution gives the same values (sorted by default) and touches no other file; loading with a requested number returns exactly that many leading values of the file or an error if there are fewer, so that for a sorted file the smallest values are kept and no p-value gets smaller.",
 "all distributions, file names, tested values and requested sizes"),
"C45":("Two hypotheses (same number of parameters) share a sample file if and only if the values of all their parameters agree in the '%g' format, i.e. to six significant digits; in particular values that differ by more than 1e-5 relative have different files, and closer values can collide (witness).",
 "all pairs of hypotheses, all real parameter values, names and suffixes"),
"C47":("Generating n pseudo-experiments, when it ends, returns exactly the first n successful values in order, retrying failed fits, and it ends as soon as n fits succeed; if they never do it never gives up, whatever the maximum number of tries. The scan and limit samplers always raise AttributeError.",
 "all numbers of values and all infinite sequences of fit outcomes"),
"C48":("Every crossing returned is a point within the scan range where the interpolated curve, which goes through the scan points, equals the requested level, and crossings are increasing, likewise with errors; the upper limit is the smallest crossing of the level 5%, whatever confidence level is requested. Interpolation orders other than 3, and less than four points, give no crossing.",
 "all scans, levels and orders, under the contract that scipy's cubic roots are the roots within the range of the interpolating spline"),
"C49":("The minimum (maximum) reported by a scan is a hypothesis of the scan where the value is smallest (largest); the list of minima of a scan with too few points for the interpolation contains a scan value instead of a position.",
 "all scans"),
"C50":("The interval of a profile likelihood scan is centred on the listed minimum with the smallest interpolated value; its errors are the distances from it to the first two crossings of the level, a single crossing gives an error on its own side only, and no crossing gives no error; if the curve is below the level at the minimum and above at both ends, and has just two crossings, both errors are positive. With more than two crossings an error can be negative, and with less than five points the centre is a scan value instead of a position.",
 "all scans and levels, under the contract on scipy's cubic roots for the position of the crossings"),
"C51":("Two hypotheses compare equal exactly when they have the same parameters with the same values; equal hypotheses written in the same order have the same hash, so that a result stored under one is found under the other, and different hypotheses are never confused; equal hypotheses written in different orders are not found when the hashes of the name lists differ.",
 "all pairs of hypotheses and all dictionaries of results"),
"C52":("Saving a fit result and loading it gives the same likelihood value, the same parameters with the same values and errors, and the same parameter vector (with a hypothesis, the fixed parameters at the values of the hypothesis), for models with distinct names and non-zero variations; the ranges of the parameters, unset in fit results, come back as 0.",
 "all fit results of all such models"),
"C54":("A raster is reported filled for a key, without restriction flags, exactly when every point holds a p-value or a test statistic of that name; with any restriction flag it is always reported filled.",
 "all rasters and keys"),
"C56":("Removing NPs from a regular model removes exactly the designated ones and the auxiliary observables that belong only to them, and changes nothing else; in the exponential form without cutoff the expected yields of the reduced model at any values of the remaining parameters equal those of the original with the removed NPs at the removal values (the values given under their names, otherwise the nominal values used as scaled values), likewise for pruning, and pruned NPs have a symmetric impact below the threshold in every bin. The predictions change in linear form, values given with a pattern are ignored, a zero reference normalization or an NP used in an expression makes the result unusable or raises, pruning raises if an impact is missing, and impacts of the same sign are pruned whatever their size. Regular: "+W+".",
 "all regular models, removed NPs and values for which removal succeeds with a regular result, samples normalized to a removed NP having its nominal value as nominal norm; all values of the remaining parameters"),
"C57":("Pruning drops exactly the samples whose significance in their channel is below the threshold, leaves all others unchanged, and the predictions are those of the original model minus the contributions of the dropped samples; if all samples of a channel are below the threshold pruning raises ValueError.",
 "all models and thresholds; regular models (one yield per bin, balanced impact tables, first NP with most variations) before and after for the predictions"),
"C59":("Whenever removing POIs succeeds, exactly the designated POIs are removed, normalizations keep the parameters and expressions they name, and the expected yields equal those of the original model at the replacement values. It raises if a sample is normalized directly to the POI, if an expression becomes constant, if an expression depends on the POI through a product, and for two POIs of which the first removal empties an expression.",
 "all models, patterns, replacement values and values of the other parameters"),
"C61":("Expanding an assignment list with value ranges gives exactly the cartesian product of the values of the ranges, in lexicographic order, nothing missing and nothing else; a range a:b:n has n equidistant values from a excluding b (including b with n+), several ranges are concatenated, a single number is one value; log ranges are always refused.",
 "all assignment lists, numbers of ranges and of points"),
"C62":("Without scaling, every parameter matched by a sequence of assignments gets the value of the last assignment that matches it and no other parameter is assigned; an assignment matching no parameter is refused. With scaling, the only matching NP gets its scaled value and matching POIs the value itself; when two NPs match, the second one gets the scaled value of the scaled value of the first.",
 "all models, patterns and sequences of assignments; for scaling, patterns matching one or two NPs"),
"C63":("A sequence of valid range assignments sets, on each side, every matching POI to the last bound given on that side, and changes nothing else; an assignment matching no POI or with an invalid number raises ValueError, leaving the effect of the assignments before it.",
 "all models and sequences of assignments"),
"C65":("Impacts that are given explicitly are never overwritten; when a sample is normalized directly to a nuisance parameter with non-zero nominal value and gives no impact for it, the impact that is assumed equals the relative change of the normalization at plus and minus the given variation. When the norm is an expression of the NP the assumed impact is computed from unchanged values and is wrong (witness: 0 instead of 1).",
 "all samples, NPs and variations"),
"C66":("Saving a single-bin, binned or multi-bin channel and loading it back gives the same channel, and a copy is identical to the original, when samples are stored under their distinct names; a Gaussian channel is reloaded as a Poisson channel and cannot be copied when it has samples.",
 "all channels of every kind, all samples whose norm expression is not a numerical string"),
"C67":("A copy of a complete model without Gaussian channels is identical to it, with the same parameters, channels, expressions, options and computed coefficients, except for the cutoff, which is always reset to 0; a model with a non-empty Gaussian channel cannot be copied.",
 "all models that could be built, all options"),
"C68":("Loading a model from a dictionary gives the same object whatever POIs, NPs, auxiliary observables and channels the object contained before; only its options and expressions survive: the expressions are kept in front of the loaded ones, and loading raises ValueError if a name is in both.",
 "all previous contents of the object, all markup contents"),
"C70":("If the optimization routine ends by evaluating its result, then after a successful minimization the stored best-fit parameters are the ones whose likelihood is the returned best-fit value; otherwise the stored parameters are those of the last evaluation (witness), and the CG method with positive verbosity always raises.",
 "all models, settings and optimization routines that end at their result"),
"C72":("Attaching Asimov results to a raster listing the same hypotheses in the same order gives each point the Asimov t_mu of its own hypothesis and changes nothing else; a raster of another size is rejected; in another order the values are attached by position to the wrong hypotheses (witness).",
 "all rasters and Asimov rasters"),
"C73":("Saving a raster and loading it back keeps its points in order with their hypotheses, likelihoods, fitted parameters, test statistics and numerical p-values; a p-value with an error comes back as a list and is no longer read as a number, the full hypothesis loses its NP values, and a raster of one point has no parameters.",
 "all rasters with distinct hypotheses, of models with distinct parameter names"),
"C75":("A raster with at least two points runs over the parameters common to its hypotheses (none if they differ); a scan runs over the requested parameters, by name or by position, and unknown names raise (NameError); the best fit of a two-dimensional scan falls back to the raster point with the smallest value. A raster of a single point has no parameter to scan.",
 "all rasters, names and positions"),
"C82":("add_pois and add_expressions append the given objects under their own names, refuse with KeyError a name already used by an object of the same kind (including earlier in the list), and change nothing else; a POI with the name of an NP is accepted. update_norms gives a new normalization to exactly the samples matched by one entry, leaves the others unchanged, keeps nominal normalization, yields and impacts, and raises KeyError exactly when a sample is matched by several entries.",
 "all models, lists of new POIs and expressions, and sets of channel/sample patterns"),
"C83":("A POI declaration name=value:min:max gives one POI under the name written (which must be a POI of the model when this is checked), with the value and range written, a field being unset if it is empty; name=a:b is read as min:max without value, and name=value is refused.",
 "all specifications and models"),
"C85":("For every model, dataset and hypothesis, the optimization is started from the initial (or given) values of exactly the free POIs, in the order of the model, with the range of each one, and the function that is minimized gives at every point the negative log-likelihood profiled over the nuisance parameters at that value of the free POIs, the fixed POIs keeping their value of the hypothesis; the analytic gradient is used exactly when it is available and not switched off; the result is the one of the optimization. A range given for a nuisance parameter is counted as a free POI and makes the minimization fail.",
 "all models, datasets, hypotheses, initial values, ranges on POIs, and points in the POI space"),
"C86":("Generated pseudo-data consist of one Poisson draw per Poisson bin with the expected yield of that bin as mean, one multivariate draw for all Gaussian bins with their expected yields as means, and for each constrained NP an auxiliary observable drawn around the value of the NP with the unscaled width of its constraint; free NPs get 0. The constraint term of the likelihood at the generation point is therefore half the sum of the squared standard draws times the variations: standard for unit variations only. The multivariate draw uses the inverse covariance as covariance, so Gaussian pulls are not standard (witness).",
 "all models, parameter values and sequences of random draws"),
"C89":("Loading a file with the flavor used for saving gives the object last saved under that name by a completed save; a save touches no other file; a process killed during a save leaves the file as it was or with the beginning of the new contents; a model and a dataset saved together are both recovered from the common file. A save starts by emptying the file, also with an unsupported flavor, and an explicit yaml flavor is not remembered by a file name without that extension.",
 "every file system, every history of saves, every kill point of a save, every model and dataset of C17 and C28, any json/yaml library that parses back what it wrote"),
"C90":("collect_results writes for each key the positions whose file has a numerical result (errors and bands included when requested), in order, with the i-th result taken from the file of the i-th position; missing or incomplete files are skipped. If every file with bands also has a numerical result, each band has one value per position, in order; otherwise the bands are shifted (witness for all file contents of that kind).",
 "every list of positions and keys, any contents or absence of each file, with or without errors and bands"),
"C91":("The option --bounds with name=[min]:[max] or name=value items is read as exactly these bounds, in order, a missing end meaning no bound on that side; these bounds replace those of the model for the named parameters and only for them; ends that are not numbers are refused. Items with extra ':' fields are silently ignored, the documented '#' separator is refused, and name=: makes the parameter fixed.",
 "every list of items, any names and numbers without separators"),
"C92":("A run of the limit program computes its results from its inputs if no raster file exists or if overwriting is requested, and otherwise uses the results of the last run that did, whatever its inputs were.",
 "every history of runs with the same output name and arbitrary inputs"),
"C93":("The position specification vmin:vmax:nvals gives nvals equidistant values from vmin to vmax, :int their integer parts, :log (vmin other than 1) nvals+1 values in geometric progression from vmin to vmax, :logint the rounded midpoints of these, and v1,v2,... the listed values; :log from 1 is refused and an unknown fourth field is taken as a listed value. One command is produced per position, in order, with every marker replaced by the value.",
 "every specification, every pattern and any list of positions"),
}
KEEP_NOTE="The intended unrestricted property (field 'intended' in properties.jsonl) is false of the code, as the _refuted theorems prove; the statement is the exact behaviour. "
ps=[json.loads(l) for l in open('/verif/properties.jsonl')]
notes=json.load(open('/verif/tools/notes.json'))
for p in ps:
    if p['id'] in NEW:
        s,q=NEW[p['id']]
        if 'intended' not in p: p['intended']=p['statement']
        p['statement'],p['quantifier']=s,q
        n=notes[p['id']][1]
        if not n.startswith(KEEP_NOTE): n=KEEP_NOTE+n
        notes[p['id']]=['proved',n]
with open('/verif/properties.jsonl','w') as f:
    for p in ps: f.write(json.dumps(p,ensure_ascii=False)+'\n')
json.dump(notes,open('/verif/tools/notes.json','w'),indent=1)
# rename theorems
names=set()
for f in glob.glob('/verif/rocq/theories/*.v'):
    for m in re.finditer(r'\b(C\d\d)(\w*)_partial(_nonvacuous)?\b',open(f).read()):
        if m.group(1) in NEW: names.add(m.group(1)+m.group(2)+'_partial')
allt=''.join(open(f).read() for f in glob.glob('/verif/rocq/theories/*.v'))
for n in names:
    if re.search(r'\b'+n[:-8]+r'\b',allt): print('CLASH',n)
for f in glob.glob('/verif/rocq/theories/*.v')+['/verif/DESIGN.md','/verif/tools/notes.json']:
    t=open(f).read();o=t
    for n in names: t=re.sub(r'\b'+n+r'(?=\b|_nonvacuous)',n[:-8],t); t=t.replace(n+'_',n[:-8]+'_')
    if t!=o: open(f,'w').write(t)
print(len(NEW),len(names))
