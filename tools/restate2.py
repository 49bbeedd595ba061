import json,re,glob,os
NEW={
"C27":("Setting auxiliary observables from a vector of the size of the NPs stores it unchanged; from a vector with one value per declared auxiliary observable, its values go in order to the constrained NPs and the free NPs get their nominal value (values in excess are ignored, too few raise IndexError); any other non-empty size is rejected with ValueError; without values the nominal values of the NPs are stored. Counts of the wrong size are rejected (NameError). The stored default is the unscaled nominal value: for a constrained NP of non-zero nominal value the likelihood is not minimal at nominal (witness).",
 "all models that can be built, all vectors of any size"),
"C29":("The system solved by NP profiling is the gradient and Hessian, at the hypothesis, of the likelihood with the impacts linearized at that point (Poisson channels, and Gaussian channels without log-normal terms). When its determinant is at least (1/1000)^(number of NPs) the profiled NPs are the stationary point of that quadratic approximation; without log-normal terms they minimize it; for Gaussian channels and linear impacts starting from zero NPs they are the true minimum of the likelihood of the model. It fails for Gaussian channels with log-normal terms, for restarts from non-zero NPs, and for smaller determinants (witnesses), and exact (non-symmetric) impacts at non-zero NPs always raise.",
 "all models and datasets meeting the stated conditions, all hypotheses, every linear solver that returns solutions"),
"C33":("With the default settings (no rebound, no alternative method) and a method suited to the number of free POIs, minimizing or computing t_mu after any history of previous calls of a minimizer gives the same result as with a new one. It does not after a call where all POIs were fixed with bounds set by hand, after the automatic change of method, or with the rebound and alternative-method recoveries (witnesses).",
 "all models, all finite histories of minimize/t_mu calls, all outcomes of the optimization routine"),
"C35":("q_mu is t_mu when the best fit is below the hypothesis and -t_mu otherwise; q~_mu built with an explicit t_0 is t_0 when the best fit is negative and q_mu otherwise; the signed square root is odd, increasing and its square is the absolute value. The calculators never pass t_0: their q~_mu is t_mu when the best fit is negative.",
 "all hypotheses, best fits, test statistic values"),
"C37":("For q_mu, computing the test statistic of a p-value and the p-value of that test statistic gives the p-value back, and conversely. For q~_mu with a positive threshold the round trip of a p-value holds exactly when the quantile is on the same side of the threshold and of its square root, and fails otherwise (witness). For t_mu it does not hold (witness).",
 "all p-values in (0,1), test statistic values and non-centralities; every strictly decreasing survival function with its inverse (the normal one is shown to be one)"),
"C44":("With any number of concurrent jobs, any schedule and crashes at any point: when all jobs have ended without crashing every requested file holds a complete sample (no lock left at the start, or locks ignored); if looking for a lock and taking it are done without interruption, each sample is produced at most once, by one job at a time; a job that breaks locks produces all its files provided none is incomplete. Without that exclusion two jobs may produce the same sample, a job may load an incomplete file, a lock left by a crash stops the production of its file for ever, and an incomplete file is never repaired (witnesses and general proofs).",
 "all numbers of jobs, lists of hypotheses, schedules and crash points"),
"C53":("The t_mu of every point of a raster is twice the difference of the likelihoods of its own two fits, so it is not negative when the free likelihood of the point is not above the fixed one; the global best-fit option never changes the result (it only raises TypeError when a free likelihood is missing), so t_mu can be negative although another point has a lower free likelihood (witness).",
 "all rasters of any number of points, all fit values"),
"C58":("After merging counting or multi-bin channels in which samples of the same name have the same norm and +1/-1 impact tables given per bin, with zero cutoff, the expected yields in each bin of the merged channel and in the other channels equal the original ones, for all parameter values, and the merged data has the same counts in each bin. Impacts common to all bins make the merge fail with ValueError, different norms change the yields, the cutoff is lost, and an unknown channel gives None, or KeyError if it is the first one (witnesses and general proofs).",
 "all models, lists of channels, parameter values and datasets meeting the stated conditions"),
"C60":("The merged model has the channels of all inputs, unchanged if their names are distinct, and, rebuilt from the same parameter definitions, predicts the same yields in each channel as the input model. The offsets and the number of bins are right when each added model has one channel. The check never succeeds (it reads a missing attribute), overlapping channels are accepted and overwritten, parameters of the added models are dropped, with several channels per model the bins are over-counted, and the merged object itself cannot be evaluated (proved).",
 "all lists of models of any number of channels, all parameter values"),
"C64":("Converting a pyhf model whose modifiers are regular (non-zero yields, up and down variations of opposite sides, no overall variation after a bin-by-bin one of the same parameter in more than two bins, normfactor names distinct from the other modifiers) gives a model that loads, with the same channels, bins and nominal yields, impacts that reproduce every varied yield, and every parameter of the measurement and of the modifiers declared once with its constraint. Outside these conditions: variations on the same side zero or invert impacts, impacts are truncated to two bins, modifiers are dropped, empty bins raise KeyError; an undeclared normfactor stays undeclared, the luminosity uncertainty of the first measurement is used, and auxdata is ignored (proved).",
 "all pyhf documents meeting the stated conditions, any number of channels, samples, modifiers, bins; each condition shown necessary"),
"C69":("Profiling succeeds only for a hypothesis given as a parameter object, and does so whenever the system can be written and solved; any other format (a dictionary, a list of values) raises NameError although the documentation accepts it.",
 "all models, datasets and hypotheses"),
"C71":("A pseudo-experiment is kept exactly when t_mu is not negative and the tested values of both fits satisfy all bounds given to the sampler. The tested values are the POIs and, for the NPs, the differences between the starting point and the best fit instead of the best fit itself (witness).",
 "all bounds, parameters and test statistic values"),
"C77":("At every point returned by a calculator the p-value, CLs and CLb are those of the stored test statistic, best fit and Asimov value, and the stored fits are those of the minimizer. For a single test t_mu is the computed one and is never negative; in a raster t_mu is recomputed as twice the difference of the stored likelihoods, and can be negative (witness).",
 "all models, datasets, hypotheses, calculator types and outcomes of the fits"),
"C78":("Bounds set on the minimizer are used in single tests. The t_mu calculator replaces them by those of the model in every raster computation, and accepts only hypothesis objects: a plain dictionary raises TypeError.",
 "all models, bounds and hypotheses"),
"C79":("The markup saved from a model obtained by merging channels is always rejected by the loader (TypeError), because its description is the verbosity level; with the description replaced by a string it loads into the same model.",
 "all merged models, all documents; reloading for models that can be saved"),
"C80":("Merging channels leaves the channels that are not merged, and the names, normalizations and yields of all samples, of the original model unchanged; the impacts of the merged samples of the original model are overwritten, so that it may not be usable any more (witness).",
 "all models and lists of channels for which the merge succeeds"),
"C88":("Setting the constraint of an NP (or of all NPs) raises AttributeError for every model with NPs, and leaves a model without NPs unchanged.",
 "all models, NP names and values"),
}
os.chdir('/verif')
P=[json.loads(l) for l in open('properties.jsonl')]
N=json.load(open('tools/notes.json'))
for p in P:
    if p['id'] in NEW:
        if 'intended' not in p:
            p['intended']=p['statement']
        p['statement'],p['quantifier']=NEW[p['id']]
        N[p['id']][0]='proved'
open('properties.jsonl','w').write(''.join(json.dumps(p,ensure_ascii=False)+'\n' for p in P))
json.dump(N,open('tools/notes.json','w'),indent=1,ensure_ascii=False)
pat=re.compile(r'\b((?:'+'|'.join(NEW)+r')_\w+?)_partial\b')
for f in glob.glob('rocq/theories/*.v')+['seeded/LOG.jsonl','DESIGN.md','tools/notes.json']:
    s=open(f).read(); t=pat.sub(r'\1',s)
    if t!=s: open(f,'w').write(t); print(f)
