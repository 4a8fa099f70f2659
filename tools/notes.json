{
 "C02": {"note": "Equivalence proved when nothing is declared mutable; symmetry and transitivity refuted in general, as the property states."},
 "C04": {"note": "Includes the exact behaviour of a failing update; its atomicity is refuted by a witness, as the property states."},
 "C05": {"note": "The two exceptions named by the property are proved by witnesses (_refuted)."},
 "C06": {"note": "Also for overwriting saves; trees built by configure are shown to satisfy the hypothesis."},
 "C07": {"note": "Protection holds at every crash point; the missing atomicity is proved by a witness."},
 "C09": {"note": "Fresh directory: proved for all crash points. Overwriting: refuted by a witness, as the property states."},
 "C10": {"note": "Includes the sibling collision and the silent loss with overwrite, as the property states."},
 "C15": {"note": "Holds for every batch whose tensors have rows; refuted for an event without rows, as the property states."},
 "C19": {"note": "Completeness with one worker for all schedules; the loss with more workers for every number of workers, every content and all parameters."},
 "C21": {"note": "The missed batch is proved by a witness schedule; the safe part for all schedules."},
 "C26": {"note": "All crash points; Later covers any sequence of later, also interrupted, saves."},
 "C27": {"note": "The reading 'zero keeps none' is refuted by a witness."},
 "C47": {"note": "Modules are functions of the batch and the earlier results; a module that mutates the earlier results in place is not modelled. An automatic name can clash with a given one (C47_default_refuted)."},
 "C48": {"note": "The selection always returns the results of the last name (C48_last); the expectation that it returns the smallest loss is refuted (C48_best_refuted)."},
 "C49": {"note": "Entries and scaling in the transformed space (C49_transformed_space); in the original space the module always raises (C49_original_space)."},
 "C50": {"note": "Comparison of settings is an arbitrary equivalence. Settings that raise when compared (numpy arrays) are not modelled."},
 "C51": {"note": "Numpy and TensorFlow merges; the log domain of the seed and the absence of clipping are hypotheses."},
 "C52": {"note": "np.searchsorted is modelled as binary search; exact reals. C52_two_sided_refuted: data equal to every sample gets 0."},
 "C53": {"note": "Loss, minimiser, model and random draws are arbitrary functions; bias and covariance of the sampled reconstructions are not modelled."},
 "C54": {"note": "Files are closed in the finally clause of the first seed; access to the closed file is an exception caught by the loader."},
 "C55": {"note": "Named columns have one value per event (pandas' handling of other lengths is not modelled)."},
 "C58": {"note": "Exact reals; -90 degrees itself (tangent undefined) is not covered."},
 "C59": {"note": "Error function and its inverse are any functions with the defining properties (derivative and value at zero); existence is proved (erf_ex), as are the limits +-1 (Gaussian integral)."},
 "C81": {"note": "Descends and KeepsLength are hypotheses about the external minimiser (scipy)."},
 "C82": {"note": "Infinite or missing bounds are None; integer dtypes of bounds (which truncate) are not modelled."},
 "C84": {"note": "One event; the optimiser is the one of C43."},
 "C87": {"note": "Riemann integral of the standard library; exact reals."},
 "C88": {"note": "The log-gamma function is any function with the functional equation; its existence is shown in lgamma_ex. Exact reals extended by infinities and NaN for logarithms."},
 "C89": {"note": "numpy's negative_binomial(r, p) is taken to sample nb_pmf r (1-p); it raises ValueError for r <= 0 or p outside [0,1]. C89_mean_refuted shows that the requested mean is never met."},
 "C90": {"note": "Exact reals."},
 "C91": {"note": "np.argsort is any function returning sorting positions; uniform draws any lists of the requested length in range."},
 "C92": {"note": "Uses C59 for the inversion of the distribution function."},
 "C93": {"note": "Concrete TensorFlow functions check the number of columns of their arguments; TensorFlow tensors cannot be indexed with a list of flags."},
 "C94": {"note": "The generator of counts only returns values of positive probability (CountSupport)."},
 "C96": {"note": "Values of the distribution function are an oracle for each step."}
}
