{
 "C01": [
  "proved",
  "The intended unrestricted property (field 'intended' in properties.jsonl) is false of the code, as the _refuted theorems prove; the statement is the exact behaviour. Round trip proved for every POI with min, max and initial value set; refuted for unset fields (reloaded as 0)."
 ],
 "C02": [
  "proved",
  "Round trip for all consistent NPs and all auxiliary observables; an NP object with aux_obs but no constraint is lost (refuted case)."
 ],
 "C03": [
  "proved",
  ""
 ],
 "C04": [
  "proved",
  "The docstring claim that a wrong type gives the default is refuted."
 ],
 "C05": [
  "proved",
  "All expression types except Formula (evaluates Python source text)."
 ],
 "C06": [
  "proved",
  "The intended unrestricted property (field 'intended' in properties.jsonl) is false of the code, as the _refuted theorems prove; the statement is the exact behaviour. True second derivatives wherever no numerator factor vanishes; the code yields NaN at a vanishing factor (refuted)."
 ],
 "C07": [
  "proved",
  "The intended unrestricted property (field 'intended' in properties.jsonl) is false of the code, as the _refuted theorems prove; the statement is the exact behaviour. Every type but Formula; formulas cannot be reloaded (refuted)."
 ],
 "C08": [
  "proved",
  "The intended unrestricted property (field 'intended' in properties.jsonl) is false of the code, as the _refuted theorems prove; the statement is the exact behaviour. Every successful replacement; replacing a factor of a product always raises TypeError (refuted)."
 ],
 "C09": [
  "proved",
  "A string that parses as a number is rejected on loading (documented as a theorem), so the round trip is for the norms a load can produce."
 ],
 "C10": [
  "proved",
  "The intended unrestricted property (field 'intended' in properties.jsonl) is false of the code, as the _refuted theorems prove; the statement is the exact behaviour. Exact reproduction for equal numbers of positive and negative variations and impacts within [1/100,100] in exponential mode; unbalanced tables are refuted, clipping proved."
 ],
 "C11": [
  "proved",
  "The intended unrestricted property (field 'intended' in properties.jsonl) is false of the code, as the _refuted theorems prove; the statement is the exact behaviour. All representations; the documented 'pos'/'neg' keys cannot be used for the coefficients (refuted)."
 ],
 "C12": [
  "proved",
  "The intended unrestricted property (field 'intended' in properties.jsonl) is false of the code, as the _refuted theorems prove; the statement is the exact behaviour. Numerical and parameter norms; when no nominal norm is given and the norm is an expression the default is 1 (refuted)."
 ],
 "C13": [
  "proved",
  "Guard: the norm expression name is not a number."
 ],
 "C65": [
  "proved",
  "The intended unrestricted property (field 'intended' in properties.jsonl) is false of the code, as the _refuted theorems prove; the statement is the exact behaviour. Norms given directly by the NP; other expressions are refuted."
 ],
 "C14": [
  "proved",
  "The intended unrestricted property (field 'intended' in properties.jsonl) is false of the code, as the _refuted theorems prove; the statement is the exact behaviour. Round trip of the counts for every single-bin, binned and multi-bin channel (binned counts must be the bins of the channel); non-integer counts are truncated by binned channels, and a Gaussian channel cannot be reloaded (refuted cases)."
 ],
 "C15": [
  "proved",
  "The intended unrestricted property (field 'intended' in properties.jsonl) is false of the code, as the _refuted theorems prove; the statement is the exact behaviour. Exact acceptance conditions per channel; a rejected load may leave the first bins of the same channel overwritten (refuted). At dataset level: after a rejected channel the counts of all later channels are unchanged (C15_rejected_channel_keeps_later_counts)."
 ],
 "C25": [
  "proved",
  "The intended unrestricted property (field 'intended' in properties.jsonl) is false of the code, as the _refuted theorems prove; the statement is the exact behaviour. All construction, access and assignment histories; giving a single number for the NPs, which the documentation allows, raises AttributeError (refuted)."
 ],
 "C26": [
  "proved",
  "The intended unrestricted property (field 'intended' in properties.jsonl) is false of the code, as the _refuted theorems prove; the statement is the exact behaviour. Round trips through dictionaries with matching options; default arguments, partial dictionaries and set_from_aux refuted."
 ],
 "C66": [
  "proved",
  "The intended unrestricted property (field 'intended' in properties.jsonl) is false of the code, as the _refuted theorems prove; the statement is the exact behaviour. All kinds but Gaussian, which cannot be reloaded (refuted)."
 ],
 "C16": [
  "proved",
  "The intended unrestricted property (field 'intended' in properties.jsonl) is false of the code, as the _refuted theorems prove; the statement is the exact behaviour. Layout proved for every model that can be built; a Gaussian channel listed before a Poisson one, which the code means to reorder, makes construction fail (refuted)."
 ],
 "C18": [
  "proved",
  "The intended unrestricted property (field 'intended' in properties.jsonl) is false of the code, as the _refuted theorems prove; the statement is the exact behaviour. Formula proved for every model that can be built whose impact tables have the shapes the code assumes (tables_ok: the first NP processed has the largest number of variations, all samples of a channel one coefficient per bin); outside, C19 has the refuting cases."
 ],
 "C19": [
  "proved",
  "The intended unrestricted property (field 'intended' in properties.jsonl) is false of the code, as the _refuted theorems prove; the statement is the exact behaviour. Continuity, sides, positivity, factor 1 at nominal, symmetric mode proved for all tables; reproduction of tabulated impacts for balanced tables; uneven tables, more variations in a later NP and ragged samples refuted."
 ],
 "C21": [
  "proved",
  "The intended unrestricted property (field 'intended' in properties.jsonl) is false of the code, as the _refuted theorems prove; the statement is the exact behaviour. Poisson and Gaussian channels, every dataset and point, for positive reference yields; refuted for a zero reference yield."
 ],
 "C22": [
  "proved",
  "The intended unrestricted property (field 'intended' in properties.jsonl) is false of the code, as the _refuted theorems prove; the statement is the exact behaviour. Every model with positive yields at the generation point; refuted for an empty bin (NaN at the generation point itself)."
 ],
 "C23": [
  "proved",
  "The intended unrestricted property (field 'intended' in properties.jsonl) is false of the code, as the _refuted theorems prove; the statement is the exact behaviour. Poisson channels at every point with finite likelihood, with and without offset; refuted for Gaussian channels."
 ],
 "C24": [
  "proved",
  "The intended unrestricted property (field 'intended' in properties.jsonl) is false of the code, as the _refuted theorems prove; the statement is the exact behaviour. Second derivatives for Poisson channels at every point with finite likelihood; symmetry for all models; refuted for Gaussian channels."
 ],
 "C17": [
  "proved",
  "The intended unrestricted property (field 'intended' in properties.jsonl) is false of the code, as the _refuted theorems prove; the statement is the exact behaviour. Round trip proved for the models markup can express (savable: distinct names, POI fields set, no formula expression, no Gaussian channel); the reloaded complete object is identical including its internal variables. Refuted: options (cutoff, impact modes) are not saved, and Gaussian channels come back as Poisson channels."
 ],
 "C27": [
  "proved",
  "The intended unrestricted property (field 'intended' in properties.jsonl) is false of the code, as the _refuted theorems prove; the statement is the exact behaviour. Placement proved when the number of declared auxiliary observables equals the number of constrained NPs. Refuted: the default and the free NPs get the unscaled nominal value instead of 0; for a constrained NP of nominal value 1 the likelihood is then not minimal at nominal. Wrong counts size raises NameError (C27_counts_size)."
 ],
 "C28": [
  "proved",
  "The intended unrestricted property (field 'intended' in properties.jsonl) is false of the code, as the _refuted theorems prove; the statement is the exact behaviour. Order independence proved in full for distinct names. Round trip proved for whole counts, no Gaussian channels, distinct auxiliary observables. Refuted for fractional counts, which are truncated."
 ],
 "C67": [
  "proved",
  "The intended unrestricted property (field 'intended' in properties.jsonl) is false of the code, as the _refuted theorems prove; the statement is the exact behaviour. Clone of a complete model without Gaussian channels is identical, internal variables included, except for the cutoff. Refuted: the cutoff is reset to 0, and Gaussian channels with samples cannot be cloned."
 ],
 "C68": [
  "proved",
  "The intended unrestricted property (field 'intended' in properties.jsonl) is false of the code, as the _refuted theorems prove; the statement is the exact behaviour. Loading depends on the previous contents only through the expressions and options. Refuted: expressions are not reset, so a name present in both makes loading fail and the others are kept."
 ],
 "C35": [
  "proved",
  "The intended unrestricted property (field 'intended' in properties.jsonl) is false of the code, as the _refuted theorems prove; the statement is the exact behaviour. Values, signs and the signed square root are proved for all reals. False part, proved: the q~ calculator never passes the t_0 of the best-fit hypothesis 0, so its value for a negative best fit is t_mu and not t_0."
 ],
 "C36": [
  "proved",
  "The intended unrestricted property (field 'intended' in properties.jsonl) is false of the code, as the _refuted theorems prove; the statement is the exact behaviour. q_mu: proved for every survival function (the normal one is shown to be one) and every non-centrality. q~_mu: proved for a positive threshold, with agreement of the two branches; a zero threshold raises ZeroDivisionError (proved)."
 ],
 "C37": [
  "proved",
  "The intended unrestricted property (field 'intended' in properties.jsonl) is false of the code, as the _refuted theorems prove; the statement is the exact behaviour. q_mu: both round trips proved. q~_mu: the code compares the quantile with the threshold instead of its square root; the exact set of p-values where the round trip holds and fails is proved, with a witness. t_mu uses the normal quantile instead of chi2 (refuted)."
 ],
 "C38": [
  "proved",
  "The intended unrestricted property (field 'intended' in properties.jsonl) is false of the code, as the _refuted theorems prove; the statement is the exact behaviour. Proved for q_mu and q~_mu as built by the calculators (A_0 > 0 for q~). With an explicit t_0, CLb ignores it and CLs can exceed 1 (refuted)."
 ],
 "C40": [
  "proved",
  "The intended unrestricted property (field 'intended' in properties.jsonl) is false of the code, as the _refuted theorems prove; the statement is the exact behaviour. Mid-p definition, range, monotonicity, order independence and error proved for in-memory samples and for files saved with the default sorting, with numpy's binary search modelled. False for files saved with sort_before_saving=False (refuted)."
 ],
 "C41": [
  "proved",
  "The intended unrestricted property (field 'intended' in properties.jsonl) is false of the code, as the _refuted theorems prove; the statement is the exact behaviour. Proved for fractions in [0,1); the fraction 1 always raises IndexError (refuted)."
 ],
 "C42": [
  "proved",
  "The intended unrestricted property (field 'intended' in properties.jsonl) is false of the code, as the _refuted theorems prove; the statement is the exact behaviour. Proved for non-zero bounds; a bound equal to zero is ignored (refuted)."
 ],
 "C43": [
  "proved",
  "The intended unrestricted property (field 'intended' in properties.jsonl) is false of the code, as the _refuted theorems prove; the statement is the exact behaviour. Round trip and requested number proved. The values kept when the file has more than requested are the smallest ones, so p-values are biased upwards (direction proved, refuted as unbiased)."
 ],
 "C44": [
  "proved",
  "The intended unrestricted property (field 'intended' in properties.jsonl) is false of the code, as the _refuted theorems prove; the statement is the exact behaviour. Transition system with any number of jobs, schedules and crashes. Proved: if all jobs end, all files are complete; under exclusive check-and-lock, at most one production. Refuted: race, stale look, load of a file being written, stale lock never produced, incomplete file never repaired."
 ],
 "C45": [
  "proved",
  "The intended unrestricted property (field 'intended' in properties.jsonl) is false of the code, as the _refuted theorems prove; the statement is the exact behaviour. '%g' modelled down to characters. Proved: same file iff the values agree to six significant digits, hence distinct files when they differ by more than 1e-5 relative. Refuted for closer values."
 ],
 "C46": [
  "proved",
  "Ratio, range, errors and ordered bands."
 ],
 "C29": [
  "proved",
  "The intended unrestricted property (field 'intended' in properties.jsonl) is false of the code, as the _refuted theorems prove; the statement is the exact behaviour. Proved: the system solved is the exact second-order expansion of the code's likelihood (Poisson channels, and Gaussian channels without the log-normal terms), the profiled NPs minimize it, and equal the true minimum for Gaussian linear models started at zero. Refuted: Gaussian channels with log-normal terms (factor 2), restarts from non-zero NPs, small determinants, exact impacts."
 ],
 "C30": [
  "proved",
  ""
 ],
 "C69": [
  "proved",
  "The intended unrestricted property (field 'intended' in properties.jsonl) is false of the code, as the _refuted theorems prove; the statement is the exact behaviour. Refuted: any format other than a Parameters object raises NameError. Only the Parameters format works (C29, C30)."
 ],
 "C31": [
  "proved",
  "The intended unrestricted property (field 'intended' in properties.jsonl) is false of the code, as the _refuted theorems prove; the statement is the exact behaviour. Proved for all non-empty ranges: initial values in bounds, valid values kept, fixed hypotheses, model ranges kept, success for two-sided ranges. Refuted: one-sided ranges, inverted ranges, set_constant, unbounded POIs."
 ],
 "C32": [
  "proved",
  "The intended unrestricted property (field 'intended' in properties.jsonl) is false of the code, as the _refuted theorems prove; the statement is the exact behaviour. Value and non-negativity proved; a failed fit does not give None and infinite likelihoods give NaN (refuted)."
 ],
 "C33": [
  "proved",
  "The intended unrestricted property (field 'intended' in properties.jsonl) is false of the code, as the _refuted theorems prove; the statement is the exact behaviour. Proved for all histories of minimize/tmu calls with default settings and a method that suits the number of free POIs; refuted after an all-fixed call, after the automatic method switch, and for both recovery modes."
 ],
 "C34": [
  "proved",
  "The intended unrestricted property (field 'intended' in properties.jsonl) is false of the code, as the _refuted theorems prove; the statement is the exact behaviour. Method, iterations, floor, rebound and alternative method proved; derivative choice and verbosity refuted."
 ],
 "C55": [
  "proved",
  "All stated laws proved. Additionally refuted: is_fixed reports an unset bound as fixed (C55_unset_is_fixed_refuted)."
 ],
 "C70": [
  "proved",
  "The intended unrestricted property (field 'intended' in properties.jsonl) is false of the code, as the _refuted theorems prove; the statement is the exact behaviour. Proved when the optimization routine ends at its result; refuted otherwise, and for CG with positive verbosity."
 ],
 "C47": [
  "proved",
  "The intended unrestricted property (field 'intended' in properties.jsonl) is false of the code, as the _refuted theorems prove; the statement is the exact behaviour. Exact number and identity of the values, and retries, proved for all sequences of outcomes; giving up after the maximum number of tries is refuted (the loop never ends), as is the use of the scan and limit samplers."
 ],
 "C71": [
  "proved",
  "The intended unrestricted property (field 'intended' in properties.jsonl) is false of the code, as the _refuted theorems prove; the statement is the exact behaviour. The selection logic is proved; the tested values are refuted: they are the NP shifts with opposite sign, not the best fit."
 ],
 "C48": [
  "proved",
  "The intended unrestricted property (field 'intended' in properties.jsonl) is false of the code, as the _refuted theorems prove; the statement is the exact behaviour. Crossings lie on the interpolated curve and increase, under the stated contract of scipy's cubic roots; the requested confidence level of the limit is ignored, other orders and few points give no crossing (refuted)."
 ],
 "C49": [
  "proved",
  "The intended unrestricted property (field 'intended' in properties.jsonl) is false of the code, as the _refuted theorems prove; the statement is the exact behaviour. Minimum and maximum over the points proved; the fallback of the list of minima is refuted."
 ],
 "C50": [
  "proved",
  "The intended unrestricted property (field 'intended' in properties.jsonl) is false of the code, as the _refuted theorems prove; the statement is the exact behaviour. Errors from the first two crossings, and positivity of both errors for a two-sided interval (intermediate value theorem), proved; more than two crossings and four-point scans refuted."
 ],
 "C51": [
  "proved",
  "The intended unrestricted property (field 'intended' in properties.jsonl) is false of the code, as the _refuted theorems prove; the statement is the exact behaviour. Equality, lookup with same insertion order, and no confusion proved; lookup with another order refuted when the hashes differ."
 ],
 "C52": [
  "proved",
  "The intended unrestricted property (field 'intended' in properties.jsonl) is false of the code, as the _refuted theorems prove; the statement is the exact behaviour. Round trip proved for saved results; parameter ranges become 0 (refuted)."
 ],
 "C53": [
  "proved",
  "The intended unrestricted property (field 'intended' in properties.jsonl) is false of the code, as the _refuted theorems prove; the statement is the exact behaviour. Test statistics from each point's own fits proved; the global best-fit option has no effect (refuted)."
 ],
 "C54": [
  "proved",
  "The intended unrestricted property (field 'intended' in properties.jsonl) is false of the code, as the _refuted theorems prove; the statement is the exact behaviour. Unrestricted test proved; the restricted flags always give true (refuted)."
 ],
 "C72": [
  "proved",
  "The intended unrestricted property (field 'intended' in properties.jsonl) is false of the code, as the _refuted theorems prove; the statement is the exact behaviour. Proved when both rasters have the same order; refuted otherwise (values attached by position)."
 ],
 "C73": [
  "proved",
  "The intended unrestricted property (field 'intended' in properties.jsonl) is false of the code, as the _refuted theorems prove; the statement is the exact behaviour. Proved for numeric values; refuted: pairs become lists, nuisance parameters of the full hypothesis are lost, rasters of one point."
 ],
 "C75": [
  "proved",
  "The intended unrestricted property (field 'intended' in properties.jsonl) is false of the code, as the _refuted theorems prove; the statement is the exact behaviour. Proved for known names and positions and for the fallback; unknown names give NameError instead of KeyError, and single-point rasters have no parameter (refuted)."
 ],
 "C39": [
  "proved",
  "Non-negativity, zero at the best point, and monotonicity in the set of hypotheses, for all lists of hypotheses that are not confused by the hash."
 ],
 "C76": [
  "proved",
  "Default mode: own fits of each point, independent of the other points when the method suits the number of free POIs; single mode: one common free fit."
 ],
 "C77": [
  "proved",
  "The intended unrestricted property (field 'intended' in properties.jsonl) is false of the code, as the _refuted theorems prove; the statement is the exact behaviour. Consistency proved for all points; non-negativity proved for single tests and refuted for rasters, which recompute t_mu."
 ],
 "C78": [
  "proved",
  "The intended unrestricted property (field 'intended' in properties.jsonl) is false of the code, as the _refuted theorems prove; the statement is the exact behaviour. Bounds used by the general method; refuted for the t_mu calculator, as are plain dictionaries."
 ],
 "C57": [
  "proved",
  "The intended unrestricted property (field 'intended' in properties.jsonl) is false of the code, as the _refuted theorems prove; the statement is the exact behaviour. Proved for all models: a sample is dropped exactly when its significance in its channel is below the threshold, all others are kept unchanged, and the predictions are those of the original model without the dropped samples. Refuted: when every sample of a channel is below the threshold, the channel becomes empty (C57_all_samples_pruned_refuted)."
 ],
 "C59": [
  "proved",
  "The intended unrestricted property (field 'intended' in properties.jsonl) is false of the code, as the _refuted theorems prove; the statement is the exact behaviour. Proved: exactly the designated POIs are removed, and predictions are preserved for replacements in expressions that remain expressions. Refuted in the code: a POI used directly as a normalization, an expression that becomes constant, two removed POIs in one expression, and a POI in a product all raise or give wrong results."
 ],
 "C60": [
  "proved",
  "The intended unrestricted property (field 'intended' in properties.jsonl) is false of the code, as the _refuted theorems prove; the statement is the exact behaviour. Proved: every channel of the inputs is present in the merged model, distinct channels are kept unchanged; predictions of a model rebuilt from the merged channels agree. Refuted: check reads a missing attribute; overlapping channels are accepted and overwritten; extra parameters are dropped; bins are over-counted; the merged object cannot be evaluated."
 ],
 "C56": [
  "proved",
  "The intended unrestricted property (field 'intended' in properties.jsonl) is false of the code, as the _refuted theorems prove; the statement is the exact behaviour. Proved for all models with the exponential form and no cutoff: exactly the designated NPs are removed, and all bin yields of the reduced model equal those of the original with the removed NPs at the removal values (also for prune, with pruned NPs at 0); pruned NPs have small symmetric impact. Refuted in the code: linear form, default removal value (unscaled nominal used as scaled), values given with a pattern ignored, zero reference normalization, NPs in expressions, prune with a missing impact, prune of same-sign impacts."
 ],
 "C58": [
  "proved",
  "The intended unrestricted property (field 'intended' in properties.jsonl) is false of the code, as the _refuted theorems prove; the statement is the exact behaviour. Proved for counting channels with bin-wise +1/-1 impact tables and equal norms for samples of the same name, zero cutoff. False without these: refuted for common impacts of multi-bin channels (the merge raises ValueError), different norms, cutoff (lost), unknown first channel (KeyError instead of None)."
 ],
 "C79": [
  "proved",
  "The intended unrestricted property (field 'intended' in properties.jsonl) is false of the code, as the _refuted theorems prove; the statement is the exact behaviour. False in the code: the description of the merged model is the verbosity integer and load_dict refuses it; the refutation is proved for all models."
 ],
 "C80": [
  "proved",
  "The intended unrestricted property (field 'intended' in properties.jsonl) is false of the code, as the _refuted theorems prove; the statement is the exact behaviour. False in the code for the impacts (refuted); proved for everything else: the other channels, names, norms, nominal norms and yields."
 ],
 "C81": [
  "proved",
  ""
 ],
 "C82": [
  "proved",
  "The intended unrestricted property (field 'intended' in properties.jsonl) is false of the code, as the _refuted theorems prove; the statement is the exact behaviour. Holds for POIs against POIs, expressions against expressions, and for the normalizations; false for a new POI that has the name of an NP (refuted theorem). The in-place changes made before an error are not modelled."
 ],
 "C61": [
  "proved",
  "The intended unrestricted property (field 'intended' in properties.jsonl) is false of the code, as the _refuted theorems prove; the statement is the exact behaviour. Full grid, exact members and size, for every list of assignments and every range given with a number of points; log ranges, which are documented, are always refused (math not imported): refuted. The recursion depth is an explicit bound in the hypotheses."
 ],
 "C62": [
  "proved",
  "The intended unrestricted property (field 'intended' in properties.jsonl) is false of the code, as the _refuted theorems prove; the statement is the exact behaviour. Without scaling: every sequence of assignments. With scaling: one matching NP (guarded); with two matching NPs the second gets the scaled value of the scaled value of the first: refuted."
 ],
 "C63": [
  "proved",
  "The intended unrestricted property (field 'intended' in properties.jsonl) is false of the code, as the _refuted theorems prove; the statement is the exact behaviour. Exact bounds for every sequence of valid assignments; an invalid assignment leaves the effect of the ones before it in the model: refuted atomicity."
 ],
 "C83": [
  "proved",
  "The intended unrestricted property (field 'intended' in properties.jsonl) is false of the code, as the _refuted theorems prove; the statement is the exact behaviour. value:min:max with optional fields is exact, and names are checked; the documented value:min is read as min:max and the documented value alone is refused: refuted."
 ],
 "C64": [
  "proved",
  "The intended unrestricted property (field 'intended' in properties.jsonl) is false of the code, as the _refuted theorems prove; the statement is the exact behaviour. Proved for valid inputs (up and down variations of opposite signs, no overall variation after a bin-by-bin variation of the same parameter in more than two bins, non-zero yields, normfactor names distinct from those of the other modifiers). Refuted outside: a same-sign bin zeroes or inverts the impacts of all bins, truncation to two bins, undeclared normfactors, dropped modifiers named as the normfactor, empty bins make the conversion fail, the lumi uncertainty of the first measurement is used, auxdata is ignored."
 ],
 "C84": [
  "proved",
  "For every pyhf input that converts and loads (channels with at least one bin, an observation of the right size for every channel). The central values 'auxdata' of the pyhf file are not used by the code (C64_auxdata_ignored_refuted)."
 ],
 "C85": [
  "proved",
  "The intended unrestricted property (field 'intended' in properties.jsonl) is false of the code, as the _refuted theorems prove; the statement is the exact behaviour. What is handed to the optimizer: x0, bounds, gradient choice and objective. The refuted part: a range given for a nuisance parameter is counted as a free POI (IndexError). Not modelled: the internals of scipy.optimize; the Jacobian having one component per POI also when some POIs are fixed."
 ],
 "C86": [
  "proved",
  "The intended unrestricted property (field 'intended' in properties.jsonl) is false of the code, as the _refuted theorems prove; the statement is the exact behaviour. Counts: means proved for all models. Auxiliary observables: draws around the NP value proved; their width is the unscaled constraint while the likelihood uses the scaled one, so pulls are standard only for unit variations (general formula proved, refuted otherwise). Gaussian channels: drawn with the inverse covariance (refuted)."
 ],
 "C87": [
  "proved",
  "For every model, point and dataset where the second derivatives of the likelihood in the POIs (at fixed NPs, which is what the code inverts) are positive definite, under the contract that np.linalg.inv returns an inverse. If the matrix cannot be inverted an AttributeError is raised (C87_no_covariance)."
 ],
 "C88": [
  "proved",
  "The intended unrestricted property (field 'intended' in properties.jsonl) is false of the code, as the _refuted theorems prove; the statement is the exact behaviour. False in the code: the loop variable hides the argument and is a string; an exception is raised for every model with NPs (refuted for all models)."
 ],
 "C89": [
  "proved",
  "The intended unrestricted property (field 'intended' in properties.jsonl) is false of the code, as the _refuted theorems prove; the statement is the exact behaviour. Files: completed saves are read back whatever the history, a kill leaves a prefix in that file only; saving is not atomic and an unsupported flavor empties the file before it is reported (refuted); an explicit flavor is forgotten by the file name (refuted). The round trip of model and data in one file holds for the models and datasets of C17 and C28. dump_markup always raises (it reads the name it assigns), load_markup in yaml depends on the PyYAML version: both outside."
 ],
 "C90": [
  "proved",
  "The intended unrestricted property (field 'intended' in properties.jsonl) is false of the code, as the _refuted theorems prove; the statement is the exact behaviour. Positions and results exactly as stated; the bands need the condition of C90_bands (a file with bands but no result shifts them: refuted)."
 ],
 "C91": [
  "proved",
  "The intended unrestricted property (field 'intended' in properties.jsonl) is false of the code, as the _refuted theorems prove; the statement is the exact behaviour. Reading as documented with ':' (the help text says '#': refuted); extra fields are silently ignored and name=: fixes the parameter (refuted)."
 ],
 "C92": [
  "proved",
  "The intended unrestricted property (field 'intended' in properties.jsonl) is false of the code, as the _refuted theorems prove; the statement is the exact behaviour. What every run of any history uses; results are stale when the inputs change without -x (refuted)."
 ],
 "C93": [
  "proved",
  "The intended unrestricted property (field 'intended' in properties.jsonl) is false of the code, as the _refuted theorems prove; the statement is the exact behaviour. Linear, listed and log positions and the generated commands; the log form gives one value too many and refuses ranges from 1, unknown forms are not refused (refuted)."
 ],
 "C94": [
  "proved",
  "Exact set of removed expressions, predictions, refusals. The documented replacement in normalizations and in other expressions does not happen (C94_norm_refuted, C94_other_expressions_refuted)."
 ],
 "C95": [
  "proved",
  "all asymptotic_pdf methods; t_mu returns a distribution object instead of a density (C95_tmu_density_refuted)"
 ],
 "C96": [
  "proved",
  "the ROOT functions are arbitrary functions of the workspace variables; sharing of a normalization parameter and variations beyond the range are refuted as stated in 'intended'"
 ],
 "C97": [
  "proved",
  "pack of convert_ws.py; an impact of up to twice the tolerance may be dropped"
 ],
 "C98": [
  "proved",
  "conversion, packing, markup and loading by sample.py composed; default sample with a normalization parameter refuted"
 ],
 "C99": [
  "proved",
  "exact behaviour: right with at most one empty sample, wrong with two or more"
 ],
 "C100": [
  "proved",
  "string parsing of --binning included; numbers are read by arbitrary functions"
 ],
 "C101": [
  "proved",
  "the whole run of the command from the input file to the files on disk: C101_output_file (reloading the output gives the pruned model, and the dataset with truncated counts), C101_np_removed_at_value; the intended statement fails for models without dataset (C101_dataset_needed_refuted) and non-integer counts (C101_counts_truncated_refuted)"
 ],
 "C102": [
  "proved",
  "whole run of the command: C102_output_file, C102_predictions, C102_files_in_order, C102_numeric_sort, C102_sort_permutation; the intended statement fails for names matching nothing, patterns starting with a star, and sorting of numbers next to letters or underscores (C102_*_refuted)"
 ],
 "C103": [
  "proved",
  "whole run of the command: C103_specification, C103_partial_ranges, C103_model_file, C103_data_file, C103_files_touched, C103_unknown_channel; the intended statement fails since the output model cannot be loaded (C103_output_unreadable_refuted)"
 ],
 "C104": [
  "proved",
  "whole run of the command: C104_removed, C104_pois_of_the_file; the intended statement fails for POIs given both by file and command line (C104_added_poi_dropped_refuted, C104_dangling_refuted), patterns, replacement values, numeric norms and formulas of the command line and unreadable option files (C104_*_refuted)"
 ],
 "C105": [
  "proved",
  "Batch mode. The likelihood fits are the ones of the model of the calculators; splines, quantiles and repr() of floats are parameters. The interval itself is the subject of C50, the computation of t_mu of C39 and C76."
 ],
 "C106": [
  "proved",
  "Batch mode. The rerun theorem is for scans of one POI with distinct hypotheses; the false parts (stale results, repeated hypotheses, forced run without hypotheses) are the _refuted theorems."
 ],
 "C107": [
  "proved",
  "Batch mode. The options that do not do what their help says are the _refuted theorems."
 ],
 "C108": [
  "proved",
  "One process at a time (several: C44). Proved for any set of hypotheses that give values to the same parameters and differ within six significant digits. False in the code and stated as such: generate() always fails, load() hides the missing file behind a NameError, locked hypotheses are skipped and their p-values are then missing, a failure leaves its lock, hypotheses that agree to six digits share their samples."
 ],
 "C109": [
  "proved",
  "Batch mode, one process, argparse and printing not modelled; the limits from toys are in C110. Proved for any libraries (minimizer that evaluates its objective, hash, spline, distribution functions), models and files. False in the code and stated as such: a stored raster is used whatever the data and hypotheses asked for; --cl changes nothing but the recorded level; -i changes nothing without toys; --regularize always fails; a bound on a nuisance parameter fails; a single hypothesis fails after the raster is written; fewer than four hypotheses give nulls with a success status; a damaged raster file ends the run even with -x."
 ],
 "C110": [
  "proved",
  "C110_results: model of compute_fast_limits.run with --ntoys > 0 (LimitCommand.v) for one parameter of interest; what an OptiSampler draws (ll_toys), the spline, norm.cdf and the optimizers are arbitrary functions. C110_rerun_same: a second run with any other toys changes no file. C110_locked_refuted: the intended behaviour with a lock left behind (missing sample skipped, the rest used) does not hold: the run fails and writes no results."
 ],
 "C111": [
  "proved",
  "compute_limits.py run in batch mode, from the fits file and the stored samples to the results file: values written (C111_results), inputs kept, refused requests; the intended toy generation, --regularize, --sethypo, --asimov, --bounds, --iterations, --data-file, single-hypothesis files and runs without toys are refuted. Distributions, splines, fits of the linear model and the toy generator are parameters; argparse, printing, plotting and --debug are not modelled."
 ],
 "C112": [
  "proved",
  "The fits, np.linalg.inv, scipy.stats and the JSON codec are parameters; at_result/finds_minimum state what is assumed of scipy.optimize. Options read from argv, --plot-result and the contents of the plots are not modelled. False parts are the _refuted theorems."
 ],
 "C113": [
  "proved",
  "The fits, scipy.stats and the JSON codec are parameters. The printed table is modelled by its numbers for verbosity up to 1 in the theorem, the plots by their curves. False parts are the _refuted theorems."
 ],
 "C114": [
  "proved",
  "Impacts.v models PlotImpacts.impacts, the file of PlotImpacts.plot and plot_impacts.run. The fits are a parameter (any function of the model and the dataset); drawing is taken to succeed. Units and clone call are refuted."
 ],
 "C115": [
  "proved",
  "Snapshot.v models import_snapshot.run; what ROOT returns for a file is a parameter."
 ]
}