{"id": "C01", "title": "Compatibility of configurations is exactly the documented recursive relation", "statement": "Asking whether configuration A is compatible with configuration B answers yes exactly when: class string, immutable settings and check values are equal, both have the same set of sub-component names, and every sub-component is recursively compatible or is declared mutable by A. Mutable settings, versions and git information never influence the answer. Every configuration is compatible with itself. Declaring further sub-components as mutable or dependent keeps the earlier declarations, adds exactly the given names and changes nothing else; it fails with KeyError, changing nothing, exactly when some name is not a sub-component.", "quantifier": "all pairs of configurations, arbitrarily deep trees of sub-components", "why_tests_cant": "The relation is recursive over unbounded trees; tests only check a few hand-written pairs.", "anchors": ["egenerator/manager/component.py: Configuration.is_compatible"]}
{"id": "C02", "title": "Compatibility is asymmetric and not transitive in general, but an equivalence when nothing is declared mutable", "statement": "If no configuration in the trees declares mutable sub-components, compatibility is symmetric and transitive. With mutable sub-components it is neither: there are A, B with A compatible with B but not vice versa, and chains A-B-C where the ends are not compatible.", "quantifier": "all pairs and triples of configurations", "why_tests_cant": "Symmetry/transitivity are universally quantified over pairs and triples of trees.", "anchors": ["egenerator/manager/component.py: Configuration.is_compatible"]}
{"id": "C03", "title": "A component is configured at most once and a failed configure never marks it configured", "statement": "Configuring (or loading into) an already configured component raises and leaves the component unchanged; a configure call that raises leaves the component reporting \"not configured\"; a configure call that returns leaves it configured. Saving an unconfigured component raises.", "quantifier": "all histories of configure/load/save calls, all argument values and all results of the component-specific configure hook", "why_tests_cant": "All histories of calls including every failure position cannot be enumerated.", "anchors": ["egenerator/manager/component.py: BaseComponent.configure", "egenerator/manager/component.py: BaseComponent.load", "egenerator/manager/component.py: BaseComponent.save"]}
{"id": "C04", "title": "The effective configuration is always settings overlaid with the current mutable settings", "statement": "After any sequence of successful updates of mutable settings, the effective configuration contains exactly the immutable settings plus the current mutable settings, immutable settings are unchanged, no key is added or removed. A failing update call (unknown key) can however leave stored mutable settings changed while the effective configuration still shows the old values.", "quantifier": "all initial settings and all sequences of update calls", "why_tests_cant": "History property over arbitrary sequences of updates, including failing ones.", "anchors": ["egenerator/manager/component.py: Configuration.update_mutable_settings", "egenerator/manager/component.py: Configuration._combine_settings"]}
{"id": "C05", "title": "After a successful configure every plain argument is recorded with its value, except empty containers and shadowed names", "statement": "When configure returns, every keyword argument that is not a component (or a non-empty container consisting only of components) is present in the effective configuration with an equal value, and every component argument is recorded as a sub-component. Empty lists/dicts are never checked, and a component whose name equals the name of a component inside a dict argument is silently replaced.", "quantifier": "all keyword argument dictionaries and all results of the component-specific configure hook", "why_tests_cant": "Quantifies over all argument dictionaries and all possible hook results.", "anchors": ["egenerator/manager/component.py: BaseComponent.configure"]}
{"id": "C06", "title": "Saving and loading a component tree is the identity", "statement": "Saving a configured component tree to fresh storage and loading it back with the same library version yields a component with the same configuration, the same data and recursively the same sub-components.", "quantifier": "all component trees (any depth and fan-out), any prior content elsewhere in the file system", "why_tests_cant": "Unbounded trees and arbitrary surrounding file-system contents.", "anchors": ["egenerator/manager/component.py: BaseComponent.save", "egenerator/manager/component.py: BaseComponent.load"]}
{"id": "C07", "title": "Refused overwrite: which files are protected", "statement": "With overwriting disabled, no file that existed before the call is ever modified by save, whether the call succeeds or raises. But the call is not atomic: when a sub-component directory already holds a component, the call raises after the files of the parent have already been written.", "quantifier": "all component trees, all file-system states", "why_tests_cant": "All file-system states and all failure positions within the recursion.", "anchors": ["egenerator/manager/component.py: BaseComponent.save"]}
{"id": "C08", "title": "Replacing sub-components on load", "statement": "A load with replacement components succeeds only if every replacement names a stored dependent sub-component and is configured and is either compatible with the stored one or was declared mutable; on success the loaded component has exactly the replacements at those names and the stored sub-components elsewhere, and recorded configurations agree with the sub-components held. A data handler loaded with replaced modules records their classes and settings, overlays its stored data with theirs and rebuilds its tensor list. A model manager can only be loaded with another data handler if every model it holds was trained with a compatible one. Classes without an update method of their own refuse every replacement.", "quantifier": "all stored trees and all (nested) dictionaries of replacements", "why_tests_cant": "Quantifies over all trees and replacement dictionaries.", "anchors": ["egenerator/manager/component.py: BaseComponent.load", "egenerator/manager/component.py: BaseComponent._update_sub_components"]}
{"id": "C09", "title": "Crash during save", "statement": "If the process dies at any point of a save into a fresh directory, a later load either raises or returns exactly the component that was being saved. For a save that overwrites an existing component this fails: a crash between writing configuration and data leaves a directory that loads without error as a mixture of new configuration and old data.", "quantifier": "all component trees, all crash points", "why_tests_cant": "Every crash point of every tree must be considered.", "anchors": ["egenerator/manager/component.py: BaseComponent.save", "egenerator/manager/component.py: BaseComponent.load"]}
{"id": "C10", "title": "Distinct target directories can collide", "statement": "The directory actually used by save and load depends only on the requested path up to its final dot: paths that differ only after the last dot of the last path element denote the same storage, so saving to the second overwrites or is refused because of the first; sibling sub-components whose names differ only after a dot collide as well. Paths whose last element has no dot are used as given.", "quantifier": "all pairs of paths", "why_tests_cant": "Statement about all strings.", "anchors": ["egenerator/manager/component.py: BaseComponent.save", "egenerator/manager/component.py: BaseComponent.load"]}
{"id": "C11", "title": "Loading a component saved by another library version", "statement": "A component saved by a different library version is never loaded: instead of the intended warning the load always raises, and the component stays unconfigured.", "quantifier": "all stored components whose recorded version differs from the running one, all other contents", "why_tests_cant": "Holds for every stored tree and version pair; the tests only run one version.", "anchors": ["egenerator/manager/component.py: BaseComponent.load"]}
{"id": "C12", "title": "Loading consumes the dictionary of replacements", "statement": "A successful load removes every used entry from the dictionary of replacements passed by the caller (also in nested dictionaries). Hence when the same dictionary is passed to several loads only the first one sees the replacements: building an ensemble from n>=2 exported managers applies the requested modifications to the first manager only, although the data handler of the last one is used.", "quantifier": "all replacement dictionaries, all ensemble sizes", "why_tests_cant": "Depends on aliasing across calls and any number of managers.", "anchors": ["egenerator/manager/component.py: BaseComponent.load", "egenerator/utils/configurator.py: ManagerConfigurator.__init__"]}
{"id": "C13", "title": "Tensor lists are canonical", "statement": "Building a tensor list fails exactly when two tensors share a name; otherwise the result is sorted by name, does not depend on the order in which tensors are given, and name-to-index and index-to-name lookups are mutually inverse.", "quantifier": "all lists of tensors", "why_tests_cant": "All permutations and sizes.", "anchors": ["egenerator/data/tensor.py: DataTensorList"]}
{"id": "C14", "title": "Tensor list serialisation round trip", "statement": "Serialising a tensor list and building a list from the result returns an equal list, provided no tensor carries an extra specification named like a serialisation field; with such an extra key the round trip changes the tensor or fails. A tensor built from the four required arguments carries the documented defaults (it exists, is not transformed, ...), is accepted exactly when the shape is given and type and dtype are known, and a single logarithm flag becomes one flag per entry of the chosen axis.", "quantifier": "all tensor lists", "why_tests_cant": "All tensors with arbitrary extra specification keys.", "anchors": ["egenerator/data/tensor.py: DataTensorList.serialize", "egenerator/data/tensor.py: DataTensorList.deserialize"]}
{"id": "C15", "title": "Batch structure and event structure are inverse views", "statement": "Splitting a batch into events and combining the events again returns the original batch (vector tensors sorted by event), and combining events and splitting again returns the events; combining fails if an event carries a wrong batch index.", "quantifier": "all batches / all lists of events, any number of pulses per event", "why_tests_cant": "All ragged shapes.", "anchors": ["egenerator/data/handler/base.py: BaseDataHandler.batch_to_event_structure", "egenerator/data/handler/base.py: BaseDataHandler.event_to_batch_structure"]}
{"id": "C16", "title": "Event filtering keeps exactly the selected events with consistent indices", "statement": "After filtering, the k-th remaining event is the k-th event selected by the mask; all tensors agree on that; per-pulse index tensors are renumbered to the new event positions and aligned with their value tensors. A mask of the wrong length, a missing tensor along the event axis, and a vector tensor with only one of its two parts present are refused.", "quantifier": "all batches, masks and ragged shapes", "why_tests_cant": "All masks and ragged shapes.", "anchors": ["egenerator/data/handler/modular.py: ModuleDataHandler._filter_data"]}
{"id": "C17", "title": "Batching preserves events", "statement": "For a stream of files processed by the batching loop with a positive batch size, the concatenation of produced batches is the stream of events in processing order, every batch except possibly the last has exactly the requested size, none is empty, and per-pulse indices equal the position of the event inside its batch.", "quantifier": "all sequences of files, all numbers of events per file (also zero), all batch sizes >= 1, all repetition counts and permutations", "why_tests_cant": "All file sequences and sizes.", "anchors": ["egenerator/data/handler/base.py: BaseDataHandler.get_batch_generator (data_queue_iterator, fill_event_list)"]}
{"id": "C18", "title": "The multi-process data pipeline never invents or duplicates events", "statement": "For every number of worker processes and every interleaving of workers, batching process and consumer, the events delivered to the consumer are a sub-multiset of the events of the input files times the number of repetitions, and every delivered batch except leftovers is full.", "quantifier": "all interleavings, numbers of workers, file lists", "why_tests_cant": "Unbounded set of schedules.", "anchors": ["egenerator/data/handler/base.py: BaseDataHandler.get_batch_generator"]}
{"id": "C19", "title": "The data pipeline can lose events with more than one worker; with one worker a finished run has delivered everything", "statement": "With two or more workers there is a schedule in which the pipeline finishes normally although the events of a file were never delivered. With one worker, every run in which the batching process finishes has put every event of every readable file into a batch.", "quantifier": "all schedules (one worker); existence of a schedule (two workers)", "why_tests_cant": "A race that shows only under particular schedules.", "anchors": ["egenerator/data/handler/base.py: BaseDataHandler.get_batch_generator (file_loader)"]}
{"id": "C20", "title": "The data pipeline can hang forever", "statement": "Without any file no run ever finishes or delivers a batch. With one worker and at most one repetition, if the number of files with data is not a multiple of the number of files mixed together, no run finishes. Whenever the batching process waits for data while only unreadable files remain, or has been killed by an exception, no continuation terminates.", "quantifier": "all runs; all continuations of the reached state", "why_tests_cant": "Liveness: no finite test distinguishes \"slow\" from \"never\".", "anchors": ["egenerator/data/handler/base.py: BaseDataHandler.get_batch_generator (data_queue_iterator, batch_iterator)"]}
{"id": "C21", "title": "The consumer can miss the final incomplete batch", "statement": "There is a schedule in which the consumer finishes although the final incomplete batch is delivered to the queue afterwards; the batch is never seen.", "quantifier": "existence of a schedule; all schedules for the safe part", "why_tests_cant": "Race between end-of-data flag and the final put.", "anchors": ["egenerator/data/handler/base.py: BaseDataHandler.get_batch_generator (batch_iterator)"]}
{"id": "C22", "title": "Normalisation statistics equal exact mean and variance, independent of batching", "statement": "The mean and standard deviation computed incrementally equal the arithmetic mean and population standard deviation of all events seen (over exact reals), however the events are split into batches and in whatever order they come; a zero deviation is replaced by one.", "quantifier": "all finite data sequences and all ways of splitting them into batches", "why_tests_cant": "All sequences and splits; floating point tests only approximate.", "anchors": ["egenerator/data/trafo.py: DataTransformer._update_online_variance_vars", "egenerator/data/trafo.py: DataTransformer._perform_update_step", "egenerator/data/trafo.py: DataTransformer._configure"]}
{"id": "C23", "title": "Transform and inverse transform are inverse", "statement": "For every element, inverse-transforming a transformed value gives back the value (values larger than -1 where a logarithm is applied), in every combination of bias correction and logarithm flags; the converse holds as well. In the graph version with per-column logarithm it holds exactly for transformed log-values within [-60, 60] and fails outside.", "quantifier": "all real values and all parameters of the transformation", "why_tests_cant": "All reals.", "anchors": ["egenerator/data/trafo.py: DataTransformer.transform", "egenerator/data/trafo.py: DataTransformer.inverse_transform"]}
{"id": "C24", "title": "Normalisation never divides by zero and the back-transformed covariance stays a covariance", "statement": "The divisor used in normalisation is strictly positive whenever the norm constant is non-negative; transforming a covariance matrix back preserves symmetry and positive semi-definiteness and scales variances by the squared factor.", "quantifier": "all matrices of any size, all deviations", "why_tests_cant": "All matrices of all sizes.", "anchors": ["egenerator/data/trafo.py: DataTransformer.inverse_transform_cov", "egenerator/data/trafo.py: DataTransformer._configure"]}
{"id": "C25", "title": "Checkpoint history invariants", "statement": "After any sequence of checkpoint saves, including failed ones: numbers are assigned consecutively from one and the recorded latest number is the number of successful saves; all protected checkpoints are recorded; an unprotected checkpoint is recorded exactly if at every later unprotected save with positive max_keep fewer than max_keep unprotected checkpoints were newer (for a constant max_keep: exactly the max_keep newest); recorded checkpoints are complete on disk and load their own weights, all others have no files and raise KeyError; loading without a number loads the last weights; a further save succeeds.", "quantifier": "all histories of saves with arbitrary protected flags and non-negative max_keep values", "why_tests_cant": "All histories.", "anchors": ["egenerator/model/base.py: Model.save_weights", "egenerator/model/base.py: Model.load_weights"]}
{"id": "C26", "title": "Crash during a checkpoint save", "statement": "If the process dies before the index file of the new checkpoint is written, all checkpoints load as before and the next save succeeds. If it dies later but before the records are opened, every later save to that directory raises IOError forever, a recorded checkpoint loads iff none of its files was deleted, and the latest one is safe unless max_keep is one and neither it nor the new one is protected; in that case there is a crash point at which it cannot be loaded. If it dies between opening and writing the records, every load and every later save raises.", "quantifier": "all checkpoint histories and crash points", "why_tests_cant": "All crash points in all histories.", "anchors": ["egenerator/model/base.py: Model.save_weights"]}
{"id": "C27", "title": "max_keep = 0 disables pruning instead of keeping none", "statement": "With max_keep equal to zero no checkpoint is ever removed. With a negative max_keep of -k every unprotected save removes the k oldest unprotected checkpoints, including the one just written if there are no more than k, after which loading the latest raises KeyError.", "quantifier": "all histories", "why_tests_cant": "All histories.", "anchors": ["egenerator/model/base.py: Model.save_weights"]}
{"id": "C28", "title": "Recorded number of training steps", "statement": "A training run over n >= 1 iterations performs n update steps per model but records n-1 training steps in the final protected checkpoint; intermediate checkpoints are saved exactly at the positive multiples of the save frequency below n, and a checkpoint recording c steps holds the weights after c+1 updates. A run succeeds iff n is positive, all frequencies are positive, checked losses are finite and the datasets hold enough batches; after it, loading the newest checkpoint gives the weights after n updates. A run that is longer than the training data last raises StopIteration after raising the step counter once more than there were updates.", "quantifier": "all n, all frequencies, all datasets, all directories produced by complete saves", "why_tests_cant": "All n.", "anchors": ["egenerator/manager/base.py: BaseModelManager.train"]}
{"id": "C29", "title": "Piecewise learning rate schedule", "statement": "If every pass of the loop has its own variables (code converted by AutoGraph), or with at most three schedules in any case, the rate at every step is that of the schedule responsible for the interval containing the step, evaluated relative to the start of the interval. With four or more and closures bound late as in plain Python (functions run eagerly), every middle interval is evaluated with the schedule and offset of the last middle interval. A single schedule is accepted but cannot be evaluated.", "quantifier": "all schedules, strictly increasing boundaries and steps", "why_tests_cant": "All steps and numbers of schedules.", "anchors": ["egenerator/utils/learning_rate.py: MultiLearningRateScheduler"]}
{"id": "C30", "title": "Combining sources", "statement": "Expected charges and variances of a combined source are the sums over sources; the combined pulse density lies between zero and the largest source density; the result does not depend on the order of the sources; a combined source with a single source reproduces its charge. Without sources evaluation ends with a ValueError, with a base that is not among the sub-components with a KeyError.", "quantifier": "all numbers of sources, all non-negative charges and densities", "why_tests_cant": "All numbers of sources and values.", "anchors": ["egenerator/model/multi_source/base.py: MultiSource.get_tensors"]}
{"id": "C31", "title": "Independent sources: parameters are partitioned", "statement": "Every source receives exactly its own block of the parameter vector; concatenating the blocks gives the full vector in the declared order. Two different sources can however produce the same parameter name.", "quantifier": "all sets of sources and parameter counts", "why_tests_cant": "All sets of sources.", "anchors": ["egenerator/model/multi_source/independent.py: IndependentMultiSource.get_parameters_and_mapping", "egenerator/model/multi_source/independent.py: IndependentMultiSource.get_source_parameters"]}
{"id": "C32", "title": "Stochastic track without systematics parameters", "statement": "The sources of a stochastic track are the track itself and its cascades, each name mapped to its own base, and these are exactly the sources parameters are computed for. Every sub-source receives its own parameters followed by the systematics parameters. If the number of systematics parameters is zero, every sub-source receives its own parameters followed by the complete parameter vector instead of nothing, so the source cannot be evaluated.", "quantifier": "all parameter vectors, all numbers of cascades", "why_tests_cant": "Edge case for all vectors.", "anchors": ["egenerator/model/multi_source/track/stochastic_track.py"]}
{"id": "C33", "title": "Derived positions and times are causally consistent", "statement": "Positions of cascades/track starts derived from a hypothesis lie on the hypothesised line through the anchor and their time offsets equal signed distance divided by the speed of light; shifting a cascade vertex to its shower maximum moves it forward along its direction by a non-negative distance at the speed of light.", "quantifier": "all real parameters", "why_tests_cant": "All reals.", "anchors": ["egenerator/model/multi_source/track/stochastic_track.py", "egenerator/model/multi_source/muon/default.py", "egenerator/data/modules/labels/cascades.py"]}
{"id": "C34", "title": "Pulse loading conserves charge", "statement": "The charge of every DOM equals the sum of the charges of its pulses; the total equals the sum over accepted pulses; the time window of an event spans exactly its accepted pulses; charge quantiles are the fraction of the DOM's charge up to the pulse in file order: increasing, in (0,1], and 1 for the last pulse, for positive charges. String and DOM numbers below one count from the end (a string number zero is counted as string 86); numbers further out make the reader fail.", "quantifier": "all pulse series", "why_tests_cant": "All pulse series.", "anchors": ["egenerator/data/modules/data/pulse_data.py: PulseDataModule.get_data_from_hdf"]}
{"id": "C35", "title": "Pulses of DOM numbers above 60 leave undefined rows", "statement": "If the file contains a pulse of a DOM number above 60, the returned pulse table has a row that is never written; if there is none, all rows are written exactly once in file order. The same holds for the table of time windows.", "quantifier": "all pulse series", "why_tests_cant": "All pulse series; undefined memory cannot be tested reliably.", "anchors": ["egenerator/data/modules/data/pulse_data.py: PulseDataModule.get_data_from_hdf"]}
{"id": "C36", "title": "The flattened DOM index is injective", "statement": "Different (event, string, DOM) triples within the detector never share a flattened index, and indices cover exactly the range.", "quantifier": "all events and DOMs", "why_tests_cant": "All events.", "anchors": ["egenerator/data/modules/data/pulse_data.py: PulseDataModule.get_data_from_hdf"]}
{"id": "C37", "title": "Combining configuration files", "statement": "Combining files succeeds only if the list is non-empty and no top level key occurs in two files; then the result holds every key of every file with its value up to placeholder expansion, plus automatic keys, which override user keys; the default float precision is only used when no file sets it. Requested configurations are independent copies.", "quantifier": "all lists of files", "why_tests_cant": "All lists of files.", "anchors": ["egenerator/settings/setup_manager.py: SetupManager._setup_config"]}
{"id": "C38", "title": "Sorted loss terms add up to the scalar loss", "statement": "For every loss function, with and without normalisation of the loss, the unsorted terms and the sorted terms (scalar, per event, per DOM) add up to the scalar loss, both exist for the same data, and a pulse contributes only to its own DOM. Exceptions, with normalisation terms switched on: the extended unbinned pulse likelihood, whose sorted terms contain only the normalisation so that the whole likelihood is missing; and the pulse and DOM charge pdf, whose sorted loss always raises although the scalar loss exists.", "quantifier": "all batches, predictions and loss settings", "why_tests_cant": "All reals.", "anchors": ["egenerator/loss/default.py: DefaultLossModule.get_loss", "egenerator/loss/default.py: DefaultLossModule.unbinned_extended_pulse_llh"]}
{"id": "C39", "title": "Excluded DOMs do not influence the loss", "statement": "Changing measured or predicted values (charge, variance, log pdf) of excluded DOMs changes no loss in any mode, and an excluded DOM without pulses contributes zero to the sorted loss; with two exceptions: the normalised DOM charge pdf depends on the predicted charge of excluded DOMs, and the pulse and DOM charge pdf with normalisation terms depends on their measured charge.", "quantifier": "all predictions, measurements and exclusion masks", "why_tests_cant": "All reals and masks.", "anchors": ["egenerator/loss/default.py: DefaultLossModule"]}
{"id": "C40", "title": "Combining losses adds them", "statement": "A combined loss module returns the sum of the member losses (scalar), or elementwise sum of sorted terms, or the concatenation of terms, in every mode; order of modules does not change scalar and sorted results.", "quantifier": "all lists of members", "why_tests_cant": "All lists.", "anchors": ["egenerator/loss/multi_loss.py: MultiLossModule.get_loss"]}
{"id": "C41", "title": "The systematics prior loss with Fourier modes always raises", "statement": "For every model and every non-empty list of mode uncertainties the systematics prior raises (unknown parameter or failed assertion); it never returns a value.", "quantifier": "all parameter name lists, all non-empty lists of sigmas", "why_tests_cant": "For all models.", "anchors": ["egenerator/loss/snowstorm.py: SnowstormPriorLossModule.get_loss"]}
{"id": "C42", "title": "Uniform prior penalty", "statement": "The penalty is zero inside the allowed range, positive outside and increasing with the distance to the range, and continuous at the edges.", "quantifier": "all reals, all ranges", "why_tests_cant": "All reals.", "anchors": ["egenerator/loss/snowstorm.py: SnowstormPriorLossModule.uniform_log_prior_loss"]}
{"id": "C43", "title": "The spherical optimiser never gets worse, but may report a point that is not the best found", "statement": "For accepted arguments the search returns; every returned value is the function value of the returned point, the best returned value is at most every initial value and does not increase with more iterations (same random numbers). The reported optimum is at most every initial value unless the first convergence check stops the search, in which case the first point is reported; and the reported optimum is not always the best of the returned points.", "quantifier": "all objective functions, dimensions, starting points, random choices, iteration counts, both methods, any argsort", "why_tests_cant": "All functions and random choices.", "anchors": ["egenerator/utils/spherical_opt.py: spherical_opt"]}
{"id": "C44", "title": "Replacement search is optimal", "statement": "The selected number of replacements is the largest N such that the N best new values pairwise improve on the N worst old values; after replacement no value at any rank is worse.", "quantifier": "all lists of values", "why_tests_cant": "All lists.", "anchors": ["egenerator/utils/spherical_opt.py: find_replacements"]}
{"id": "C45", "title": "Spherical geometry helpers", "statement": "Coordinates filled from angles have unit length and reproduce the angles; reflection at a unit centroid preserves length, is an involution and is the point reflection along the great circle.", "quantifier": "all unit vectors and angles", "why_tests_cant": "All reals.", "anchors": ["egenerator/utils/spherical_opt.py: fill_from_spher", "egenerator/utils/spherical_opt.py: fill_from_cart", "egenerator/utils/spherical_opt.py: reflect"]}
{"id": "C46", "title": "Convergence thresholds are compared with truncated deviations", "statement": "The standard deviations compared with convergence thresholds are truncated to integers; so for any positive threshold at most one any spread below one unit counts as converged.", "quantifier": "all coordinate spreads", "why_tests_cant": "All reals.", "anchors": ["egenerator/utils/spherical_opt.py: spherical_opt"]}
{"id": "C47", "title": "Reconstruction tray runs modules once, in order, under unique names", "statement": "Adding a module under an existing name raises and leaves the tray unchanged; executing runs every module exactly once in the order of addition, each seeing exactly the results of earlier modules, and the returned dictionary has one entry per module.", "quantifier": "all sequences of additions", "why_tests_cant": "All sequences.", "anchors": ["egenerator/manager/reconstruction/tray.py: ReconstructionTray"]}
{"id": "C48", "title": "Selecting the best reconstruction returns the last one", "statement": "For every non-empty list of reconstructions the module returns the last listed one, regardless of losses; so whenever the last is not the best the documented choice is violated.", "quantifier": "all lists of results", "why_tests_cant": "All lists.", "anchors": ["egenerator/manager/reconstruction/modules/reconstruction.py: SelectBestReconstruction.execute"]}
{"id": "C49", "title": "Covariance without transformed space always raises", "statement": "The covariance module always raises if minimisation was not done in transformed space.", "quantifier": "all inputs", "why_tests_cant": "All inputs.", "anchors": ["egenerator/manager/reconstruction/modules/covariance.py: CovarianceMatrix.execute"]}
{"id": "C50", "title": "Function cache is a map from (name, settings)", "statement": "After any sequence of additions, lookup returns the function added under an equal name and equal settings or nothing; adding twice under the same name and settings raises and changes nothing.", "quantifier": "all histories", "why_tests_cant": "All histories.", "anchors": ["egenerator/manager/reconstruction/tray.py: FunctionCache"]}
{"id": "C51", "title": "Held parameters keep their seed values", "statement": "When only some parameters are fitted, the full result has the fitted values at fitted positions in order and the seed values at all other positions, up to the exact transformation round trip.", "quantifier": "all fit masks, vectors and transformations", "why_tests_cant": "All masks.", "anchors": ["egenerator/manager/reconstruction/modules/utils/trafo.py: get_reco_result_batch", "egenerator/manager/source.py: SourceManager.parameter_loss_function"]}
{"id": "C52", "title": "p-values are well defined", "statement": "The one-sided p-value is the fraction of samples not below the data value, the two-sided one is twice the smaller of the fractions of samples below and not below it; both are in [0,1], independent of the order of samples, and the one-sided value decreases with the data value. A data value equal to all samples gets the two-sided value 0; without samples ZeroDivisionError is raised.", "quantifier": "all sample lists and data values", "why_tests_cant": "All lists.", "anchors": ["egenerator/manager/reconstruction/modules/fit_quality.py: GoodnessOfFit.compute_p_value"]}
{"id": "C53", "title": "Goodness of fit mixes simulated pulses with observed DOM charges", "statement": "The batch evaluated for a simulated event contains the simulated pulses but the DOM charges of the observed event: the charges of its pulses agree with its DOM charges iff the simulated counts are the observed charges. So loss terms of the DOM charges do not see the simulation: with only such terms (no covariance matrix, no reconstruction of samples, no normalisation) all samples have the loss of the data and the p-values are 1 and 0 whatever is drawn.", "quantifier": "all events", "why_tests_cant": "All events.", "anchors": ["egenerator/manager/reconstruction/modules/fit_quality.py: GoodnessOfFit.execute"]}
{"id": "C54", "title": "Loading more than one seed from a file never works", "statement": "With two or more seed names every file is skipped. With exactly one, the file yields one row per event with the requested parameters in the requested order, missing ones filled in as specified, provided the first parameter is in the table; a missing first parameter skips the file although a frame with the same labels is loaded. Frames accept any number of seeds. Without seeds the loader raises UnboundLocalError. A frame in which a seed, or a parameter without fill value, is missing is skipped.", "quantifier": "all files, frames, seed names and settings", "why_tests_cant": "All files.", "anchors": ["egenerator/data/modules/misc/seed_loader.py: SeedLoaderMiscModule.get_data_from_hdf"]}
{"id": "C55", "title": "The label filter decides differently for files and frames", "statement": "For files an event passes iff all constraints hold on the named columns or vector entries; if only one event of a file has the vector entry, it decides for all events. For frames the column name of a constraint is ignored and the table name used in its place, so the decision differs or AttributeError is raised. Non-negative vector positions agree between file and frame, negative ones do not. Asking a vector of a frame by name raises AttributeError, asking anything else by position raises TypeError.", "quantifier": "all constraints, files and frames", "why_tests_cant": "All constraints.", "anchors": ["egenerator/data/modules/filters/general_filter.py: GeneralFilterModule"]}
{"id": "C56", "title": "Removing missing gradients misassigns the others", "statement": "With removal of undefined gradients enabled, if a variable has no gradient then all later gradients are applied to the wrong variables (shifted by the number of missing ones); without missing gradients every gradient goes to its own variable.", "quantifier": "all lists of variables and gradients", "why_tests_cant": "All lists.", "anchors": ["egenerator/manager/base.py: BaseModelManager.perform_training_step"]}
{"id": "C57", "title": "Order of ensemble members", "statement": "Ensemble members are returned in the order given at configuration as long as there are at most 10000 of them; beyond, lexicographic order of names differs from numeric order.", "quantifier": "all ensemble sizes", "why_tests_cant": "All sizes.", "anchors": ["egenerator/manager/base.py: BaseModelManager.models", "egenerator/manager/base.py: BaseModelManager._configure"]}
{"id": "C58", "title": "New direction at a given opening angle", "statement": "The generated direction is a unit vector and encloses exactly the requested angle (above -90 and below 90 degrees) with the input direction, for every random draw not parallel to it; parallel draws give NaN. Input vectors that are not unit vectors give a wrong angle, and angles below -90 degrees are accepted with a wrong result. Shapes must agree or one of them must have a single entry, otherwise ValueError.", "quantifier": "all directions, angles, numbers of rows and random draws", "why_tests_cant": "All reals.", "anchors": ["egenerator/utils/angles.py: get_delta_psi_vector_dir"]}
{"id": "C59", "title": "Asymmetric Gaussian: density, distribution and quantile functions fit together", "statement": "Density is positive, continuous at the mode, equals exp of the log version; the distribution function is non-decreasing from 0 to 1 and the quantile function inverts it.", "quantifier": "all reals, sigma > 0, r > 0", "why_tests_cant": "All reals.", "anchors": ["egenerator/utils/basis_functions.py"]}
{"id": "C60", "title": "Regularisation strength is ignored", "statement": "The regularisation loss depends on the configured strengths only through their being positive.", "quantifier": "all weights and strengths", "why_tests_cant": "All reals.", "anchors": ["egenerator/manager/base.py: BaseModelManager.regularization_loss"]}
{"id": "C61", "title": "Filtering away all pulses makes the data unusable", "statement": "If at least one event is selected but no selected event has a pulse, filtering succeeds but leaves Python lists instead of arrays, and splitting them into events (as the batching process does) raises a TypeError.", "quantifier": "all batches and masks of that kind", "why_tests_cant": "Needs an input where all pulses disappear; a test suite with realistic files never hits it, and the claim is about every such batch.", "anchors": ["egenerator/data/handler/modular.py: _filter_data", "egenerator/data/handler/base.py: event_to_batch_structure, batch_to_event_structure"]}
{"id": "C62", "title": "A tensor missing in one file is lost for all files of its group", "statement": "When files are mixed in a group and one of them has no data for a tensor, the produced batches contain one zero per event for that tensor, for the events of all files of the group; the other tensors keep their data.", "quantifier": "all groups of files, batch sizes, repetitions and index sequences", "why_tests_cant": "Quantifies over all combinations of files and tensors; tests use complete data.", "anchors": ["egenerator/data/handler/base.py: get_batch_generator, fill_event_list, data_queue_iterator"]}
{"id": "C63", "title": "Every input can make the data pipeline hang", "statement": "For every list of files (even if all are readable), every number of workers and every choice of queue capacities, batch size, repetitions and mixing there is a schedule after which neither the batching process nor the consumer can ever finish: the batching process tests for the end between a worker's put of the last data and its count.", "quantifier": "all file lists, numbers of workers and parameters; all continuations of the reached state", "why_tests_cant": "A race that shows only under particular schedules, and a liveness failure.", "anchors": ["egenerator/data/handler/base.py: BaseDataHandler.get_batch_generator (file_loader, data_queue_iterator, batch_iterator)"]}
{"id": "C64", "title": "Reducing over axes averages deviations instead of pooling the values", "statement": "When axes are reduced, the stored mean is the mean of all values averaged over, but the stored deviation is the average of the deviations of the single elements: it never exceeds the deviation of all those values taken together, and is replaced by one if all elements are constant, even if they differ from each other.", "quantifier": "all data sequences, shapes and sets of reduced axes", "why_tests_cant": "An inequality over all data; tests see single data sets.", "anchors": ["egenerator/data/trafo.py: DataTransformer._configure"]}
{"id": "C65", "title": "Training settings can become unsavable", "statement": "As long as every component of the training settings could be saved, the step directories are exactly the recorded steps and the next settings can be saved: a new record with zero steps is added and all others are kept. A component which cannot be saved makes the save raise. Once a step directory was created without being recorded, because a component raised in its save or the process died, no later save with training settings in that model directory ever succeeds. Updating the number of steps changes the entry of the latest training only; without any recorded training it raises IOError and no weights are written.", "quantifier": "all directories, components and crash points, and all later saves", "why_tests_cant": "All crash points and all later executions.", "anchors": ["egenerator/model/base.py: Model.save_training_settings", "egenerator/model/base.py: Model.update_num_training_steps"]}
{"id": "C66", "title": "Data used for evaluation", "statement": "During training the validation losses use up the validation dataset in order, while updates, training losses and the evaluation module share the training dataset in order; the evaluation module never receives validation data.", "quantifier": "all datasets, frequencies and numbers of iterations, including runs that fail", "why_tests_cant": "All interleavings of the frequencies.", "anchors": ["egenerator/manager/base.py: BaseModelManager.train"]}
{"id": "C67", "title": "Every source is evaluated by its own base", "statement": "get_tensors of a multi source evaluates every source with the base it is mapped to, and succeeds exactly if all bases are known and every source has parameters of the right number its base accepts. This holds if the functions created in the loop over the set of bases keep the base of their pass; if, as in plain Python, they read the loop variable when called, all sources are evaluated by whichever base the set yields last, so charges are wrong and depend on the iteration order of a set of strings. With one base there is no difference.", "quantifier": "all sets of bases and sources, all iteration orders", "why_tests_cant": "The iteration order of a set of strings changes between processes; a test sees one order, and the muon source has only one base.", "anchors": ["egenerator/model/multi_source/base.py: MultiSource.get_tensors"]}
{"id": "C68", "title": "Reading frames and reading files agree", "statement": "For a frame with at least one pulse and no DOM number above 60, get_data_from_frame returns the same tensors, or raises the same exception, as get_data_from_hdf for a table with the same contents, whatever memory contained. The frame reader returns exactly the time windows of DOM numbers up to 60.", "quantifier": "all frames, settings and memory contents", "why_tests_cant": "The two readers are separate code; tests compare them on a few events.", "anchors": ["egenerator/data/modules/data/pulse_data.py: PulseDataModule.get_data_from_hdf", "egenerator/data/modules/data/pulse_data.py: PulseDataModule.get_data_from_frame"]}
{"id": "C69", "title": "Missing exclusion keys", "statement": "A file without the configured time window exclusions makes the file reader raise TypeError although the code announces that it only warns; the frame reader returns empty windows. A missing DOM exclusion key is tolerated by both, and then nothing is discarded. A file is skipped exactly if its pulses or labels are missing.", "quantifier": "all files, frames and settings", "why_tests_cant": "Every combination of missing keys and settings.", "anchors": ["egenerator/data/modules/data/pulse_data.py: PulseDataModule.get_data_from_hdf", "egenerator/data/modules/data/pulse_data.py: PulseDataModule.get_data_from_frame"]}
{"id": "C70", "title": "Frames without pulses", "statement": "A frame without accepted pulses makes the frame reader raise IndexError if quantiles are requested or pulses of excluded DOMs are discarded; the file reader returns empty tables.", "quantifier": "all frames without accepted pulses", "why_tests_cant": "All such frames and settings.", "anchors": ["egenerator/data/modules/data/pulse_data.py: PulseDataModule.get_data_from_frame"]}
{"id": "C71", "title": "DOM exclusions", "statement": "The exclusion mask is false exactly for bad DOMs and DOMs named in the table; discarding removes exactly the pulses of these DOMs, keeping order, rows and ids aligned, and leaves DOM charges and time windows as they are.", "quantifier": "all files", "why_tests_cant": "All files.", "anchors": ["egenerator/data/modules/data/pulse_data.py: PulseDataModule.get_data_from_hdf"]}
{"id": "C72", "title": "Placeholders are expanded in one pass, in order of definition", "statement": "A string setting is rendered with the final values of settings defined before it and the unexpanded values of settings defined after it; so a chain of references works only backwards, and a forward reference to a setting with placeholders leaves an unexpanded placeholder in the result. Strings in lists are never expanded.", "quantifier": "all files, all settings", "why_tests_cant": "Whether a placeholder is resolved depends on the order of keys over all files and of automatic keys; examples only show single orders.", "anchors": ["egenerator/settings/setup_manager.py: SetupManager.expand_strings"]}
{"id": "C73", "title": "Name of a combined configuration", "statement": "The automatic name is made of the last parts of the paths without any occurrence of '.yaml' in them, joined by two underscores; it does not identify the list of files: different lists can get the same name (which is meant for directories of logs and checkpoints).", "quantifier": "all lists of files", "why_tests_cant": "Collisions between names need a search over all pairs of file lists.", "anchors": ["egenerator/settings/setup_manager.py: SetupManager._setup_config"]}
{"id": "C74", "title": "Sorted mode of the systematics prior always raises", "statement": "Asked for sorted loss terms, the systematics prior raises for every model and data as soon as it has one uniform parameter, although the scalar and unsorted losses exist; a combined loss containing it can therefore not be sorted.", "quantifier": "all uniform parameters, models and data", "why_tests_cant": "For all models and data.", "anchors": ["egenerator/loss/snowstorm.py: SnowstormPriorLossModule.get_loss"]}
{"id": "C75", "title": "Losses add up over the events of a batch", "statement": "The scalar loss of a batch (not normalised) is the sum of the scalar losses of its events, each taken as a batch of its own: no loss function mixes events.", "quantifier": "all batches, predictions and loss functions", "why_tests_cant": "All reals and batch compositions.", "anchors": ["egenerator/loss/default.py: DefaultLossModule"]}
{"id": "C76", "title": "The normalised DOM loss only sees relative charges", "statement": "Scaling all predicted charges of an event by a common non-zero factor leaves the normalised DOM charge loss unchanged in every mode.", "quantifier": "all batches, predictions and factors", "why_tests_cant": "All reals.", "anchors": ["egenerator/loss/default.py: DefaultLossModule.normalized_dom_charge_pdf"]}
{"id": "C77", "title": "Switching off only some directions makes the optimiser fail", "statement": "Thresholds for directions that are not positive are documented to be ignored; if some but not all are positive, the search raises UnboundLocalError at its first iteration (unless a limit of calls or the spread of the values stops it before).", "quantifier": "all objective functions, starting points, thresholds of mixed sign", "why_tests_cant": "All configurations.", "anchors": ["egenerator/utils/spherical_opt.py: spherical_opt"]}
{"id": "C78", "title": "The call limit is exceeded by less than one iteration", "statement": "The number of function calls reported by the optimiser is at most max_calls - 1 plus the cost of one iteration (2 * batch size for CRS2, number of points + 1 for Nelder-Mead), or the number of starting points if that is larger; without a limit it is at most the starting points plus that cost per iteration.", "quantifier": "all objective functions, random choices, limits", "why_tests_cant": "All executions.", "anchors": ["egenerator/utils/spherical_opt.py: spherical_opt"]}
{"id": "C79", "title": "The stopping flag tells the truth", "statement": "Flag -1 means that all iterations were used, flag 0 that the number of calls reached its limit, flag 1 that the returned values spread by less than fstdthresh, flag 2 that the lowest value before the last iteration was not below the one max_noimprovement + 1 iterations earlier, flag 3 that every Cartesian coordinate with a positive threshold at most an integer k spreads by less than k among the returned points and the directions spread about their centre by less than every positive threshold. Conversely the search does not stop earlier: in every simplex but the last the values spread by at least fstdthresh, some threshold is missed, and the lowest value has improved within the last max_noimprovement + 1 iterations.", "quantifier": "all objective functions, random choices, thresholds", "why_tests_cant": "All executions.", "anchors": ["egenerator/utils/spherical_opt.py: spherical_opt"]}
{"id": "C80", "title": "Splitting points into directions and coordinates loses nothing", "statement": "Packing a point into Cartesian and spherical parts and patching it together gives the same point, for every choice of spherical indices.", "quantifier": "all points, dimensions, spherical indices", "why_tests_cant": "All index choices.", "anchors": ["egenerator/utils/spherical_opt.py: create_x"]}
{"id": "C81", "title": "A fit never reports a larger loss for the result than for the seed", "statement": "Reconstruction.execute reports the loss at the seed and at the result. With the scipy interface the objective function evaluated at the starting point is exactly the reported seed loss and evaluated at the minimiser's answer is exactly the reported result loss, in both spaces and with held parameters, so with a minimiser that never returns a worse point than it starts from loss_reco <= loss_seed. The only exception is an exponent clipped by TensorFlow in the inverse transformation. Both reported losses are the sums of the losses of all models of the manager; without models nothing is reported.", "quantifier": "for all parameters, fit flags, seeds in the domain of the logarithm, losses and descending minimisers", "why_tests_cant": "tests run one seed; the agreement of the two paths (numpy merge and TensorFlow merge) for every choice of flags and space needs a proof", "anchors": ["egenerator/manager/source.py:94-156,545-699", "egenerator/manager/reconstruction/modules/reconstruction.py:209-284"]}
{"id": "C82", "title": "Bounds keep their meaning in the transformed space", "statement": "When the scipy interface minimises in the transformed space with bounds, a point satisfies the transformed bounds exactly if its parameters satisfy the given ones; lower bounds at or below -1 of a logarithmic parameter restrict nothing and are dropped correctly, while an upper bound at or below -1 is dropped although no parameter satisfies it. Bounds together with a held parameter always raise for one event, since one interval per parameter is needed for the transformation and one per fitted parameter for the minimiser.", "quantifier": "for all transformations built from data, bounds, points and flags", "why_tests_cant": "the equivalence quantifies over all points and all bounds, including infinite ones", "anchors": ["egenerator/manager/source.py:671-699", "egenerator/data/trafo.py:334-396"]}
{"id": "C83", "title": "The TensorFlow Probability interface needs all parameters fitted", "statement": "tf_reconstruct_events raises TypeError for every seed if any parameter is held, because a tensor is indexed with a list of flags; with all parameters fitted it starts at the (transformed) seed and returns the optimiser's answer for the loss of those parameters.", "quantifier": "for all optimisers, seeds, flags and spaces", "why_tests_cant": "no test covers held parameters with this interface; the claim is about every optimiser and every choice of flags", "anchors": ["egenerator/manager/source.py:967-1074"]}
{"id": "C84", "title": "The spherical optimiser interface works for exactly seven fitted parameters and never gets worse than the seed", "statement": "reconstruct_events_spherical_opt raises unless exactly seven parameters are fitted (the scale of the initial spread has seven columns). If it returns, the seed is one of the twenty initial points and the objective at the returned point is not above the objective at the seed, even if the search stops at the first check. The other nineteen points are drawn around the seed; azimuth and zenith are treated as a direction exactly if all parameters are fitted in the original space.", "quantifier": "for all objective functions, random numbers, flags, spaces and seeds", "why_tests_cant": "random initial points and mutations; the bound has to hold for every draw", "anchors": ["egenerator/manager/source.py:701-829", "egenerator/utils/optimizer/spherical_opt.py"]}
{"id": "C85", "title": "The global scipy interface works only in the transformed space without held parameters", "statement": "scipy_global_reconstruct_events raises AssertionError outside of the transformed space. In it the search box is the seed plus and minus one in every transformed parameter; with a held parameter the objective function raises at every point of that box.", "quantifier": "for all seeds, flags, losses and points", "why_tests_cant": "the box and the failure are claimed for every seed and every point of the box", "anchors": ["egenerator/manager/source.py:831-965"]}
{"id": "C86", "title": "Sandwich covariances are symmetric and positive semi-definite", "statement": "The outer product of gradients is symmetric and positive semi-definite for any gradients, hence for a symmetric inverse Hessian the sandwich covariances returned by the covariance module, also after scaling back to the original space, are symmetric and positive semi-definite, even if the inverse Hessian itself is not positive.", "quantifier": "for all gradients, symmetric matrices, numbers of parameters and transformations built from data", "why_tests_cant": "positive semi-definiteness quantifies over all vectors", "anchors": ["egenerator/manager/reconstruction/modules/covariance.py:93-175", "egenerator/manager/source.py:295-478"]}
{"id": "C87", "title": "The asymmetric Gaussian density integrates to its distribution function", "statement": "At every point, including the mode where the two halves meet, the density is the derivative of the distribution function; its integral over any interval is the difference of the distribution function at the ends, so the total probability is one.", "quantifier": "all reals, sigma > 0, r > 0", "why_tests_cant": "The claim ranges over all reals, so no finite set of evaluations settles it.", "anchors": ["egenerator/utils/basis_functions.py: asymmetric_gauss, asymmetric_gauss_cdf"]}
{"id": "C88", "title": "The negative binomial has the documented mean and variance", "statement": "With the normalisation term, the exponentials of log_negative_binomial at the natural numbers are the probabilities of a distribution with mean mu and variance mu + alpha mu^2, for mu > 0. For mu = 0, which the documentation allows, the value at 0 is not a number instead of zero. The normalisation term depends neither on mu nor alpha.", "quantifier": "all means, over-dispersions and counts", "why_tests_cant": "The claim ranges over all reals, so no finite set of evaluations settles it.", "anchors": ["egenerator/utils/basis_functions.py: log_negative_binomial, tf_log_negative_binomial"]}
{"id": "C89", "title": "Sampling from the negative binomial loses part of the mean", "statement": "sample_from_negative_binomial accepts exactly positive means with a variance of at least the mean (an accepted mean of zero in the documentation raises ValueError). The distribution it samples has the requested mean and variance both scaled by (var-mu)/(var-mu+1e-6) < 1: never the requested mean, at most half of it if alpha mu^2 <= 1e-6, and always zero counts if the variance is the mean.", "quantifier": "all means, over-dispersions and variances", "why_tests_cant": "The claim ranges over all reals, so no finite set of evaluations settles it.", "anchors": ["egenerator/utils/basis_functions.py: sample_from_negative_binomial"]}
{"id": "C90", "title": "Rayleigh density and distribution function", "statement": "The density is the derivative of the distribution function, which increases from 0 at 0 to 1 at infinity. For negative arguments, which are not rejected, the density is negative and the distribution function has the value of the positive argument.", "quantifier": "all reals, sigma > 0", "why_tests_cant": "The claim ranges over all reals, so no finite set of evaluations settles it.", "anchors": ["egenerator/utils/basis_functions.py: rayleigh, rayleigh_cdf"]}
{"id": "C91", "title": "Simulated pulses conserve the sampled charge", "statement": "For every DOM the simulated event has as many pulses as counts were drawn, with positive charges adding up to that number and ordered in time; other identifiers do not occur. With charge quantiles each pulse has the fraction of its DOM's charge up to and including it, the last one 1. An event without any count raises ValueError.", "quantifier": "all counts, latent variables and random draws", "why_tests_cant": "It ranges over all events, draws and model outputs; a test sees a few pseudo-random samples.", "anchors": ["egenerator/manager/reconstruction/modules/fit_quality.py: GoodnessOfFit.sample_event_pulses"]}
{"id": "C92", "title": "Simulated pulses follow the mixture model", "statement": "For scales that are not negative and add up to at most one, the component chosen is always in range, and is component k exactly for random numbers in an interval as long as its scale. The pulse time is at most T iff the second random number is at most the distribution function of the component at (T - source time)/1000.", "quantifier": "all mixtures and random draws in [0,1)", "why_tests_cant": "It ranges over all events, draws and model outputs; a test sees a few pseudo-random samples.", "anchors": ["egenerator/manager/reconstruction/modules/fit_quality.py: GoodnessOfFit.sample_event_pulses", "egenerator/utils/basis_functions.py: asymmetric_gauss_ppf"]}
{"id": "C93", "title": "Goodness of fit needs all parameters to be fitted", "statement": "If any parameter is held, GoodnessOfFit.execute raises for every event, with or without reconstruction of the samples.", "quantifier": "all events, results and settings", "why_tests_cant": "It ranges over all events, draws and model outputs; a test sees a few pseudo-random samples.", "anchors": ["egenerator/manager/reconstruction/modules/fit_quality.py: GoodnessOfFit.execute"]}
{"id": "C94", "title": "Goodness of fit only works with the negative binomial charge model", "statement": "With the Poisson charge model every sampled count is zero and execute raises for every event. With the asymmetric Gaussian one, the variance is evaluated for a dummy charge of one, and the counts simulated have one eleventh of the expected charge as mean. With the negative binomial one the counts have the mean and the variance of the model up to a common factor a/(a + 1e-6), where a is the over-dispersion times the squared expected charge.", "quantifier": "all events and expected charges", "why_tests_cant": "It ranges over all events, draws and model outputs; a test sees a few pseudo-random samples.", "anchors": ["egenerator/manager/reconstruction/modules/fit_quality.py: GoodnessOfFit.sample_num_pe", "egenerator/model/source/cascade/default.py: get_tensors", "egenerator/manager/source.py: get_model_tensors_function"]}
{"id": "C95", "title": "The angle between vectors", "statement": "get_angle returns the angle defined by the scalar product for all non-zero vectors of any length, is symmetric and lies in [0, pi]; get_angle_deviation of zenith and azimuth angles gives the same value; a zero vector always gives the angle 0.", "quantifier": "all vectors and angles", "why_tests_cant": "All reals.", "anchors": ["egenerator/utils/angles.py: get_angle, get_angle_deviation"]}
{"id": "C96", "title": "The scan of opening angles stays in its valid range", "statement": "The bisection for the scan range ends within 5.625 degrees of the crossing of a monotone distribution function, and always between 5.625 and 84.375 degrees, however small the uncertainty is. For one event the scan never raises and has points at equal steps from the best fit to the bound. Several events raise unless their number equals the number of points. The fitted uncertainty is only determined up to its sign. A bound from a covariance matrix is twice the circularised uncertainty, at most 89.9 degrees; at the poles the azimuth does not matter.", "quantifier": "all likelihood values, directions, random draws and numbers of points", "why_tests_cant": "All values of the likelihood; unit tests use one likelihood.", "anchors": ["egenerator/manager/reconstruction/modules/opening_angle.py: CircularizedAngularUncertainty.execute", "egenerator/manager/reconstruction/modules/opening_angle.py: CircularizedAngularUncertainty.get_circularized_estimate"]}
{"id": "C97", "title": "Every loss is minus the logarithm of its likelihood", "statement": "The scalar loss of each of the eight loss functions is minus the logarithm of the likelihood it is named after: a product over the DOMs which are not excluded, the pulses and the events of Poisson, normal or negative binomial terms and of pulse densities to the power of the charge, with the offsets 1e-7 and 5e-5. With add_normalization_term the factors are divided by the factorials of the charges. Normalising by the total charge divides the loss by the charge of all pulses plus 5160 per event.", "quantifier": "all batches, predictions, exclusions, settings and all functions with the properties of the gamma function that are used", "why_tests_cant": "The identity with the likelihood is about all real charges and predictions; tests compare a few floating point values.", "anchors": ["egenerator/loss/default.py: DefaultLossModule.get_loss, log_faculty, unbinned_extended_pulse_llh, unbinned_pulse_time_llh, unbinned_pulse_and_dom_charge_pdf, unbinned_charge_quantile_pdf", "egenerator/loss/default.py: dom_and_event_charge_pdf, negative_binomial_charge_pdf, negative_binomial_event_charge_pdf, normalized_dom_charge_pdf", "egenerator/utils/basis_functions.py: tf_log_gauss, tf_log_negative_binomial"]}
{"id": "C98", "title": "Every iteration of the optimiser is a step of the documented method", "statement": "The simplices of a run form a sequence in which each is obtained from the previous one by a step of the chosen method. Nelder-Mead: the point with the largest value is reflected at the centre of the others (mean of coordinates, direction of the sum of directions) and replaced by the reflected, expanded or contracted point according to the usual comparisons, or all points move half way to the lowest one. CRS2: batch many points are reflected at the centre of the lowest point and ndim - 1 drawn ones, the lowest not being drawn; they take the places of the highest old points, as many as possible; the rest are mutated with the drawn weights about the new lowest point and get a second chance, but not against points that have just been added. The returned points are the last simplex.", "quantifier": "all objective functions, starting points, random numbers of the right shapes, methods, batch sizes and mixtures of coordinates and directions", "why_tests_cant": "All executions of a randomised algorithm.", "anchors": ["egenerator/utils/spherical_opt.py: spherical_opt", "egenerator/utils/spherical_opt.py: centroid", "egenerator/utils/spherical_opt.py: reflect", "egenerator/utils/spherical_opt.py: mutate"]}
{"id": "C99", "title": "What the goodness of fit compares", "statement": "If GoodnessOfFit.execute returns, it has compared the losses of the samples with the loss of the observed event at the best fit. Sample i belongs to hypothesis i: a copy of the best fit, or a draw around it, in the logarithm of one plus the value for the chosen parameters. Its pulses are drawn from the counts and the latent variables of that hypothesis, and its loss is evaluated for the observed batch with these pulses, at the hypothesis or at its reconstruction. The loss of an event is the sum of the losses of all DOMs, the event term and the scalar term. With normalisation every loss is divided by one plus the total charge, of the sample or of the observed event. The p-values, of the event and of each DOM, are those of these numbers. Without samples UnboundLocalError is raised.", "quantifier": "all settings, models, losses, minimisers and random numbers", "why_tests_cant": "All draws and all losses; the module runs with random numbers.", "anchors": ["egenerator/manager/reconstruction/modules/fit_quality.py: GoodnessOfFit.execute"]}
{"id": "C100", "title": "Noise follows the time a DOM is read out", "statement": "For read-out windows of positive length and excluded time windows of a DOM that do not overlap each other, the noise source evaluates without an error, and the charge it expects at a DOM is the nominal rate times a common learned factor times the time at which the DOM is read out (length of the read-out window of the event minus what the excluded windows cover of it), plus a thousandth of the read-out window and 1e-7.  The variance is that of a negative binomial with one positive over-dispersion.", "quantifier": "for all rates, weights, events, windows, DOMs and pulses", "why_tests_cant": "Tests use a few windows; windows can be cut by the read-out window, touch, lie outside, and any number can apply to the same DOM.", "anchors": ["egenerator/model/source/noise/default.py:65-297"]}
{"id": "C101", "title": "Time density of noise pulses", "statement": "Every noise pulse of a DOM has the same density: one over the time at which the DOM is read out, plus a thousandth of the read-out window.  Without excluded windows it integrates to exactly one over the read-out window; if the tensor of excluded windows exists it integrates over the times read out to less than one.  A pulse inside an excluded window gets the same positive density as one outside.  An event whose pulses all have the same time has no finite density.", "quantifier": "for all events, windows and pulses", "why_tests_cant": "A normalisation is a statement about all times.", "anchors": ["egenerator/model/source/noise/default.py:164-165", "egenerator/model/source/noise/default.py:271-281"]}
{"id": "C102", "title": "Checks of excluded windows by the noise source", "statement": "Excluded windows which are not reversed are rejected with an assertion if and only if, for some DOM of some event, the sum of their lengths inside the read-out window reaches 1.0001 times its length, where times covered by two windows count twice: windows that leave part of the time to read out can be rejected, and if accepted they reduce the charge twice.  A reversed window of at least a ten-thousandth of the read-out window, or any excluded window of an event whose pulses all have the same time, fails the whole batch, whatever the other windows are.", "quantifier": "for all batches and windows", "why_tests_cant": "The condition depends on the sum over any number of windows.", "anchors": ["egenerator/model/source/noise/default.py:170-237"]}
{"id": "C103", "title": "Noise can not be scaled down", "statement": "The learned factor of the nominal noise rate is always above 1.02 and takes every value above; it is 2.02 for weights of zero, around which the weights are initialised.  No weight gives the nominal rate.  The over-dispersion is always above exp(-4.99) + 1e-6.", "quantifier": "for all weights", "why_tests_cant": "The range of a learned parameter is a statement about all weights.", "anchors": ["egenerator/model/source/noise/default.py:241-256"]}
{"id": "C104", "title": "Inputs of the cascade source", "statement": "A batch of events with the documented number of parameters (seven, the additional labels, the snowstorm parameters) is accepted, any other number is rejected with an error.  Shifting an event in time together with its pulses and excluded windows changes no output; two pairs of angles of the same direction give the same outputs.", "quantifier": "for all configurations, networks, batches, shifts and exclusion windows", "why_tests_cant": "Invariance under all shifts and all angles, for every network.", "anchors": ["egenerator/model/source/cascade/default.py:52-81", "egenerator/model/source/cascade/default.py:185-291"]}
{"id": "C105", "title": "Layout of the network output", "statement": "The source works only if the last layer has exactly four values per component plus the variables of the charge and at least two components, otherwise it raises ValueError.  Every value of the output is used exactly once, in the order charge, positions, widths, asymmetries, weights.  The charge distribution is described only for the option values True and 'negative_binomial'; every other value silently means Poisson.", "quantifier": "for all configurations, networks and batches", "why_tests_cant": "An off-by-one in the slices is not visible in the shapes that tests compare.", "anchors": ["egenerator/model/source/cascade/default.py:333-400"]}
{"id": "C106", "title": "The pulse time distribution is a mixture density", "statement": "For every DOM the weights are positive and add up to one and the widths are positive, whatever the network returns.  The density of a pulse is positive, depends on no other pulse and no observed charge, and integrates to one over the times in microseconds, hence to one thousand over nanoseconds.", "quantifier": "for all networks, batches, DOMs and pulse times", "why_tests_cant": "Normalisation is an integral over all times for all network outputs.", "anchors": ["egenerator/model/source/cascade/default.py:306-331", "egenerator/model/source/cascade/default.py:354-400", "egenerator/model/source/cascade/default.py:660-695"]}
{"id": "C107", "title": "Expected charge of a DOM that is not always read out", "statement": "With separate excluded windows the source never fails, and the expected charge is that without windows times the probability that a photon arrives while the DOM is read out, plus a thousandth.  Windows that overlap are added up: for every DOM there is a window that is accepted once and raises AssertionError if it is listed twice.", "quantifier": "for all networks, batches and sets of windows", "why_tests_cant": "Depends on the integral of the density over the allowed times.", "anchors": ["egenerator/model/source/cascade/default.py:405-511", "egenerator/model/source/cascade/default.py:517-548"]}
{"id": "C108", "title": "Pulse density with excluded windows", "statement": "With excluded windows the density of a pulse stays positive at all times, also at excluded ones, and integrates to less than one over the allowed times; a DOM without windows gets its density divided by 1.001 as soon as the tensor of windows exists.  It is not the density given that the photon arrives at an allowed time: every component is scaled by itself, which changes the ratio of the densities at two allowed times.", "quantifier": "for all networks, batches and separate windows", "why_tests_cant": "Conditional densities are statements about integrals over all times.", "anchors": ["egenerator/model/source/cascade/default.py:660-695"]}
{"id": "C109", "title": "Sorting of the mixture components", "statement": "The option prevent_mixture_component_swapping sorts the positions of the components but not their widths, asymmetries and weights.  It has no effect if the positions are in order; otherwise the density changes: components swap their widths instead of their order.", "quantifier": "for all networks and batches", "why_tests_cant": "Tests with components of equal width do not see it.", "anchors": ["egenerator/model/source/cascade/default.py:384-392"]}
{"id": "C110", "title": "Expected charges and their likelihood", "statement": "The expected charge is the exponential of the first output times energy/10000 and the efficiencies that are switched on, plus 1e-7; it is positive if these are not negative and can be negative for negative energies.  Poisson: the variance is the expectation.  Negative binomial: for whole charges the likelihood is the probability of a distribution with the expectation and variance returned, times the factorial of the charge.  Asymmetric: above an observed charge of five the logarithm of a density (plus 1e-7) with a width of at least 0.9 of Poisson, below Poisson terms; the likelihood can exceed one and the uncertainty depends on the observed charge.", "quantifier": "for all networks, batches and observed charges", "why_tests_cant": "Real-valued identities for all expectations and charges.", "anchors": ["egenerator/model/source/cascade/default.py:513-658"]}
{"id": "C111", "title": "Units of cascade and noise densities", "statement": "The density of the cascade source is per microsecond, that of the noise source per nanosecond.  In a combined source the pulse density is therefore that of the cascade and of noise with an expectation one thousand times smaller; it is never proportional to the sum of the densities weighted with the expected charges.", "quantifier": "for all networks, batches, DOMs, noise levels and pulse times", "why_tests_cant": "The mismatch only changes the relative weight of noise and is not visible in shapes or signs.", "anchors": ["egenerator/model/source/cascade/default.py:325-331", "egenerator/model/source/cascade/default.py:684-695", "egenerator/model/source/noise/default.py:150-156", "egenerator/model/multi_source/base.py:357-412"]}
{"id": "C112", "title": "Configuration of the simulation module and its rows of parameters", "statement": "The simulation module can be configured exactly with one model whose parameters all have a default value or are one of x, y, z, zenith, azimuth, energy and time; otherwise NotImplementedError, IndexError or KeyError is raised.  A configured module never simulates a frame: it always raises, with AttributeError for the missing param_dtype if every default value is a number for a parameter of the model.  With the attribute set, each row holds the default values and the parameters of its particle; with duplicate parameter names an entry keeps uninitialised memory.", "quantifier": "for all settings, models, frames, trees of particles and contents of uninitialised memory", "why_tests_cant": "Whether any frame can pass needs an argument over all frames and settings, and uninitialised memory differs between runs.", "anchors": ["egenerator/ic3/simulation.py:91-219", "egenerator/ic3/simulation.py:221-260", "egenerator/ic3/simulation.py:370-415"]}
{"id": "C113", "title": "Light sources of an event", "statement": "The light sources are exactly the electromagnetic particles, in the order of the tree, that pass the cuts on energy and distance and whose ancestors all pass them and are not electromagnetic themselves.  The call fails exactly if a particle reached in this way is neither electromagnetic nor a neutrino and has no daughters (NotImplementedError), or has daughters and is not a hadron (ValueError).  A cascade at the centre of the detector is lost if the particle that made it is cut.", "quantifier": "for all trees of particles and cuts", "why_tests_cant": "Trees are unbounded and the outcome depends on all ancestors of each particle.", "anchors": ["egenerator/ic3/simulation.py:417-475", "egenerator/ic3/simulation.py:477-506"]}
{"id": "C114", "title": "Simulated pulses", "statement": "The pulse map has an entry, with valid DOM numbers and only once, exactly for DOMs at which some cascade has photo-electrons.  The pulses of a DOM are sorted in time and consist of one pulse per photo-electron of each cascade, with positive charges that add up to the number of photo-electrons, and times drawn from the mixture of that cascade at that DOM with the time of that cascade.  For uniform random numbers the probability of a time is that of the density of the cascade model.  With mixtures and positive charges not above their variance nothing fails.", "quantifier": "for all numbers of cascades, latent variables, sampled counts and random numbers", "why_tests_cant": "Sampling is random; a test sees a few draws.", "anchors": ["egenerator/ic3/simulation.py:262-368"]}
{"id": "C115", "title": "Simulated charges with the tensors of the model", "statement": "With the model function the module uses, an event without light sources raises.  For the Poisson charge model no photo-electron is ever drawn, for the asymmetric one the mean is an eleventh of the expected charge, since the variance is that of a dummy charge of one, and for the negative binomial one the mean is below the expected charge: at most one half of it if the excess variance is at most one millionth, at least 999 thousandths from one thousandth on.", "quantifier": "for all networks, configurations, rows, DOMs and expected charges", "why_tests_cant": "Means of sampled numbers need the distribution, not draws.", "anchors": ["egenerator/manager/source.py:480-543", "egenerator/ic3/simulation.py:280-285", "egenerator/model/source/cascade/default.py:540-690"]}
{"id": "C116", "title": "Modules of the test reconstruction", "statement": "reconstruct_testdata builds one fit per seed, the selection and the modules that are switched on, fits exactly the parameters the settings name (a name that is not a parameter is a KeyError), refuses a seed given twice, and cannot work with 'num_random_seeds' or without any seed: it raises on the first batch.", "quantifier": "all settings, seeds, flags, parameter names and batches", "why_tests_cant": "The tray is configured from free settings; tests run one configuration and never the random seeds.", "anchors": ["egenerator/manager/source.py:1298-1301", "egenerator/manager/source.py:1355-1538", "egenerator/manager/reconstruction/modules/reconstruction.py:209-284"]}
{"id": "C117", "title": "Table of the test reconstruction", "statement": "A successful reconstruct_testdata has one row for every event of all batches in their order, with the true parameters, the seed, the fit from the LAST seed of the list and the three losses; the columns are the listed ones, all of the same length. Parameters whose name equals another column's name overwrite it.", "quantifier": "all settings, models, fits, losses and sequences of batches", "why_tests_cant": "Depends on every combination of settings and on data of any size; a test sees one table.", "anchors": ["egenerator/manager/source.py:1560-1584", "egenerator/manager/source.py:1713-1822"]}
{"id": "C118", "title": "Uncertainties in the table and failures", "statement": "Row i of the uncertainty, p-value and circularised columns belongs to batch i (roots of the diagonals of that batch's covariance matrices at its fit), so a table with them has as many events as batches; they need the transformed space, all parameters fitted and a minimiser with hess_inv. No data, the likelihood scan, a missing mapping or a file without directory always raise; with MCMC no sample of the first batch may be accepted. Rows need not belong together if batches have several events.", "quantifier": "all settings, oracles and sequences of batches", "why_tests_cant": "Misalignment only shows for batches of unequal size; failures depend on combinations of settings.", "anchors": ["egenerator/manager/source.py:1586-1709", "egenerator/manager/source.py:1763-1822"]}
{"id": "C119", "title": "Objects and results written to a frame", "statement": "A configured EventGeneratorReconstruction has one fit per seed (all different), the selection and the modules switched on, loaded from the joined directories and made for the parameters the settings fit; conversely such settings are enough. Physics leaves every object of the frame and appends exactly the documented keys, none of which was there, so a frame that already has output_key is an error. The map under output_key has the fit, run times, success, losses and, if switched on, p-values, biases and circularised uncertainty of the modules, and no other keys, provided that these keys are different; a parameter named like another entry is lost.", "quantifier": "all settings, managers, modules, clocks and frames", "why_tests_cant": "Which keys are written depends on every combination of settings and on what the frame has; a test sees one frame of one configuration.", "anchors": ["egenerator/ic3/reconstruction.py:152-331", "egenerator/ic3/reconstruction.py:333-459"]}
{"id": "C120", "title": "Covariance maps of a frame", "statement": "For every covariance matrix (and that of the sampled reconstructions) the frame has a map with exactly the upper triangle: the key of (i, j) is the name of i, an underscore and the name of j, with 'log_' before parameters that are transformed with the logarithm, and its value is the entry (i, j). This needs different keys for different pairs; names as 'a', 'b_c', 'a_b', 'c' lose a covariance.", "quantifier": "all settings, parameter names, logarithm flags and matrices", "why_tests_cant": "Key collisions depend on parameter names; a test has one model.", "anchors": ["egenerator/ic3/reconstruction.py:387-397", "egenerator/ic3/reconstruction.py:416-421", "egenerator/ic3/reconstruction.py:461-492"]}
{"id": "C121", "title": "Particles, DOM maps and failing frames", "statement": "With a mapping the frame has a particle whose attributes are exactly those of the mapping with the values of the result map; a mapping with only one of zenith and azimuth, or with a parameter that is not a parameter, run time or loss of the fit, always raises. The p-values of DOMs are those of all 86 strings with 60 DOMs. Frames that do not have exactly one event and minimisers without 'success' always raise.", "quantifier": "all settings, mappings, frames and results", "why_tests_cant": "Depends on free configuration and on what the minimiser returns.", "anchors": ["egenerator/ic3/reconstruction.py:335-337", "egenerator/ic3/reconstruction.py:364-385", "egenerator/ic3/reconstruction.py:424-445"]}
{"id": "C122", "title": "Rows of labels", "statement": "A configured label module returns for a file, or for a frame, exactly one row per event: the labels of the class in the order of the class, with the vertex shifted to the shower maximum if asked for and unchanged otherwise, followed by the systematics parameters of that event (one if no key is given). It returns nothing else.", "quantifier": "all four classes, all arguments, all files with rectangular tables and all frames, any number of events", "why_tests_cant": "Ranges over all numbers of cascades, parameters and events and over all label values.", "anchors": ["egenerator/data/modules/labels/cascades.py:120-251", "egenerator/data/modules/labels/snowstorm_cascades.py:155-334", "egenerator/data/modules/labels/snowstorm_tracks.py:187-356", "egenerator/data/modules/labels/snowstorm_track_segment.py:141-314"]}
{"id": "C123", "title": "Shifted track labels move the cascades only", "statement": "If track labels are loaded with and without shifting to the shower maximum and handed to the stochastic track source, the parameters of the track segment are the same, and each cascade differs exactly by a flight at the speed of light along the track by the depth of the maximum of its own energy.", "quantifier": "all files, numbers of cascades, numbers of systematics parameters greater than zero and all label values", "why_tests_cant": "An identity over the reals between two modules that are never run together.", "anchors": ["egenerator/data/modules/labels/snowstorm_tracks.py:378-467", "egenerator/model/multi_source/track/stochastic_track.py:100-260"]}
{"id": "C124", "title": "Attribution of systematics parameters", "statement": "If the vectors of the events follow each other, every event gets its own vector. A file is loaded exactly if every index from zero to the number of parameters minus one occurs once per event and no other occurs, so never without events; only these counts are compared, so rows in another order are accepted and attributed in the order found. Without events a file is skipped if the key is given and gives no rows otherwise.", "quantifier": "all files, vectors and numbers of parameters", "why_tests_cant": "Quantifies over all orders of the rows of a table.", "anchors": ["egenerator/data/modules/labels/snowstorm_cascades.py:193-214", "egenerator/data/modules/labels/snowstorm_tracks.py:225-246", "egenerator/data/modules/labels/snowstorm_track_segment.py:185-206"]}
{"id": "C125", "title": "Announced shape and flags of the labels", "statement": "The configured tensor announces the number of columns of every row that is loaded, if the number of systematics parameters is not negative. A single logarithm flag is repeated for the labels of the class and is off for systematics parameters, but is missing for additional labels; lists of flags and negative numbers of parameters are never checked. Arguments are accepted exactly if the shift is a bool, the number of cascades is not negative, the precision exists and the flags are a bool, list or tuple; a list of tensors given from outside must have the same number of columns.", "quantifier": "all arguments of the four classes", "why_tests_cant": "The agreement of two separately written counts for all numbers of cascades and parameters.", "anchors": ["egenerator/data/modules/labels/cascades.py:92-118", "egenerator/data/modules/labels/snowstorm_cascades.py:109-153", "egenerator/data/modules/labels/snowstorm_tracks.py:115-185", "egenerator/data/modules/labels/snowstorm_track_segment.py:108-139"]}
{"id": "C126", "title": "Which files of labels are skipped", "statement": "A configured module never raises on a file that can be opened or on a frame; it skips it exactly if a table, a label or the systematics parameters it needs cannot be read. One missing label, or in a file of segments one event that does not start at its anchor, loses all events of the file.", "quantifier": "all files with rectangular tables and all frames", "why_tests_cant": "The set of all malformed files cannot be enumerated.", "anchors": ["egenerator/data/modules/labels/snowstorm_cascades.py:184-218", "egenerator/data/modules/labels/snowstorm_tracks.py:216-250", "egenerator/data/modules/labels/snowstorm_track_segment.py:170-210"]}
{"id": "C127", "title": "Files and frames give the same labels", "statement": "If the labels and systematics vectors of some frames are written one after the other to a file, the rows loaded from the file are those loaded from the frames, in order.", "quantifier": "all classes, arguments and non-empty lists of frames", "why_tests_cant": "Two separately written loaders for all inputs.", "anchors": ["egenerator/data/modules/labels/snowstorm_cascades.py:155-334", "egenerator/data/modules/labels/snowstorm_tracks.py:187-356", "egenerator/data/modules/labels/snowstorm_track_segment.py:141-314"]}
{"id": "C128", "title": "Labels fit the parameters of the track source", "statement": "The stochastic track source with the same numbers of cascades and systematics parameters finds every label of a loaded row under the name of the label, and the systematics parameters in order under the names that follow. The row loaded by the segment module is what the track source hands to its track sub-source for the unshifted track labels of the same event.", "quantifier": "all files and numbers of cascades and systematics parameters", "why_tests_cant": "Agreement of name lists and orders in three files for all counts.", "anchors": ["egenerator/data/modules/labels/snowstorm_tracks.py:131-149", "egenerator/data/modules/labels/snowstorm_track_segment.py:173-206", "egenerator/model/multi_source/track/stochastic_track.py:60-260"]}
{"id": "C129", "title": "Smoothed shift of a point onto a track segment", "statement": "For a segment of positive length, shift_distance_on_track returns a distance strictly between 0 and the length, keeps the order of distances, and differs from the closest point of the segment by less than ln 2 (0.69 m) and by no more than the exponential of minus the distance to the nearer end. It is symmetric under exchange of start and end. A segment of negative length extends backwards from the anchor, and one of length zero is a point. It is not a projection: points of the segment are moved, and moved again when the function is applied again.", "quantifier": "all lengths and all distances along the track", "why_tests_cant": "Bounds on a smooth real function for all lengths and distances cannot be sampled.", "anchors": ["egenerator/model/source/track/stochastic_segment.py:136-172"]}
{"id": "C130", "title": "Energy deposited between two points of a segment", "statement": "For positive length and energy, get_dep_energy is at least 0, less than the energy, symmetric in the two points, additive over adjacent stretches, linear in the energy, and equal to the share of the segment between the points up to twice ln 2 of track; over the whole segment it is the energy up to an exponentially small share. For a negative length it is not positive. The caller passes a closest approach that is shifted already, so that of a segment of one metre that ends a kilometre before the closest approach more than a fifth of the energy counts as deposited after it.", "quantifier": "all energies, lengths and points", "why_tests_cant": "Additivity and error bounds are statements over all reals.", "anchors": ["egenerator/model/source/track/stochastic_segment.py:102-134", "egenerator/model/source/track/stochastic_segment.py:363-383"]}
{"id": "C131", "title": "What the segment source tells its network about a DOM", "statement": "For a segment of positive length the network input of a DOM is built from the foot point of the DOM on the line, the smoothed closest point of the segment (within ln 2 of the closest one), the distance to it, the point that emits Cherenkov light towards the DOM, the opening angle and the deposited energies, in a fixed order. Without coordinates among the inputs it does not change when segment and DOM are translated together or when the time is shifted. A length of minus one metre makes the three energies and the relative position on the track NaN; of the position along the track only the sign is left: plus one if the DOM is ahead of the vertex, minus one if it is behind it.", "quantifier": "all parameters, DOM positions and configurations", "why_tests_cant": "Geometric identities over all positions and directions.", "anchors": ["egenerator/model/source/track/stochastic_segment.py:268-481"]}
{"id": "C132", "title": "Which calls the segment source accepts", "statement": "Batches whose rows have as many entries as the source has parameters, with a data transformer that takes the logarithm of the energy and a network layout of four filters per component plus the charge filters and at least two components, are accepted; other row lengths, layouts and component counts are rejected with an error, and without the logarithm of the energy the call ends in an UnboundLocalError. In training, rows with energies below -1e-3, lengths below -1000 or of -1 fail an assertion, as does an empty batch. Negative lengths down to -1000 pass the assertion that is meant to ensure positive ones. Parameter names and label order of the segment label module agree.", "quantifier": "all batches, configurations, networks", "why_tests_cant": "Acceptance is a statement about all batches and configurations.", "anchors": ["egenerator/model/source/track/stochastic_segment.py:54-76", "egenerator/model/source/track/stochastic_segment.py:277-288", "egenerator/model/source/track/stochastic_segment.py:415-428", "egenerator/model/source/track/stochastic_segment.py:483-503", "egenerator/model/source/track/stochastic_segment.py:694-700", "egenerator/model/source/track/stochastic_segment.py:769-779"]}
{"id": "C133", "title": "Charges and time density of the segment source", "statement": "The time density of every event and DOM is a mixture of asymmetric Gaussians built from consecutive slices of the network output; it is positive and its integral over times in ns is 1000. The value at a pulse is the density at its time. The charge is the exponential of the first output times the configured factors plus 1e-7, hence positive; variance and likelihood follow the charge mode. Time exclusions are never applied. Shifting an event with its pulses in time changes nothing, and neither do angles that denote the same direction.", "quantifier": "all networks, batches, pulses, DOMs", "why_tests_cant": "Integrals over all times and invariances for all events.", "anchors": ["egenerator/model/source/track/stochastic_segment.py:513-783"]}
{"id": "C134", "title": "What manager the configurator yields", "statement": "If ManagerConfigurator succeeds for a list of directories, its manager has the class and settings recorded in the reconstruction configuration (reco_config_dir if given, otherwise the first directory; the recorded manager_dir is not adjusted), holds the models of all directories in order (up to ten thousand) and the data handler of the last directory, and its loss module is the one the configuration describes. All models have the parameter names of the first one and a transformation that is compatible and equal in its data, and were trained with a data handler compatible with the one held; the check of models accepts exactly such lists. Without any directory the configurator ends in an error.", "quantifier": "all stored managers, directories, configurations", "why_tests_cant": "The combinations of directories and stored components are unbounded.", "anchors": ["egenerator/utils/configurator.py:13-189", "egenerator/manager/base.py:23-183"]}
{"id": "C135", "title": "Which requested changes of modules reach the data handler", "statement": "With a single directory, the modules for seeds, labels and data that the updates describe (stored settings overridden by the updates; the dummy label module if labels are not loaded) replace those of the data handler, and its other modules are the stored ones. With two or more directories the updates have no effect on the manager: the data handler is the one of the last directory as stored, whatever is requested, although the configuration shows the requested values. So the IceTray reconstruction with two models ignores pulse keys, exclusions and seeds (refuted expectation with a witness).", "quantifier": "all stored managers, all updates", "why_tests_cant": "Concerns all combinations of directories and updates.", "anchors": ["egenerator/utils/configurator.py:86-177", "egenerator/utils/build_components.py:153-239", "egenerator/manager/component.py:861-999"]}
{"id": "C136", "title": "What configuration the configurator shows", "statement": "After construction, the configuration of the configurator is the one read from the reconstruction directory, where the data settings are overridden by the requested data settings and, if labels are loaded, the label settings by the requested label settings; every other entry at any depth is unchanged and settings for seeds do not appear.", "quantifier": "all configurations and updates", "why_tests_cant": "All nested keys of all configurations.", "anchors": ["egenerator/utils/configurator.py:72-189"]}
{"id": "C137", "title": "How a model of several sources is put together", "statement": "build_model succeeds exactly if the class and settings of the model are given and can be configured with the transformer and the sources; the sources are taken in the order and under the names of the settings, each loaded from its directory if one is given, and otherwise, if rebuilding is allowed, configured with its own stored transformer or else the one of the model. The sources are passed only if there are any. Without permission to rebuild, a source without directory makes the call fail.", "quantifier": "all configurations, transformers, stored sources", "why_tests_cant": "Exact characterisation over all nested settings.", "anchors": ["egenerator/utils/build_components.py:78-150"]}
{"id": "C138", "title": "What handlers, losses and managers a configuration builds", "statement": "build_data_handler, build_loss_module and build_manager succeed exactly in the cases their settings describe and give the component described: one dictionary of settings gives that loss module, a list gives a sum that holds exactly the losses of the list in order; parts given to build_manager are used instead of what the settings describe, and a restored manager is the stored one whatever parts are given. The parts that a new manager holds fit together.", "quantifier": "all configurations and parts", "why_tests_cant": "Exact characterisation over all nested settings.", "anchors": ["egenerator/utils/build_components.py:19-75", "egenerator/utils/build_components.py:153-239", "egenerator/loss/multi_loss.py:30-79"]}
{"id": "C139", "title": "MCMC samples the likelihood of the models, chain by chain", "statement": "When MarkovChainMonteCarlo.execute succeeds, the target log probability handed to tfp.mcmc.sample_chain gives for every chain minus the summed loss of all models at the physical parameters of that chain alone: the chain's point itself, or its inverse transformation (with TensorFlow's clipping of exponents) when sampling in the transformed space.", "quantifier": "for all built transformations, losses, data, settings, earlier results, samplers and points of the chains", "why_tests_cant": "The target is only seen by the sampler; a sign error, a missing transformation or mixing of chains still yields plausible samples.", "anchors": ["egenerator/manager/source.py:1144-1154", "egenerator/manager/reconstruction/modules/mcmc.py:76-118"]}
{"id": "C140", "title": "Where the chains start", "statement": "Every chain starts at the numbers of the earlier module's result. When sampling in the original space the first target value is minus the loss at this result. When sampling in the transformed space (the default) the numbers are taken as transformed values: the chains start at their inverse transformation, which in general is not the result (the expectation that they start at the reconstruction is refuted).", "quantifier": "for all built transformations, losses, settings, earlier results and samplers", "why_tests_cant": "Chains that start at a wrong point may still move; a test sees only random samples.", "anchors": ["egenerator/manager/reconstruction/modules/mcmc.py:137-172"]}
{"id": "C141", "title": "Returned samples are the accepted draws with their log probabilities", "statement": "The returned samples are exactly the accepted draws, result by result and chain by chain in this order, at their physical parameters, and log_prob_values holds the log probability of each at the same position. If the sampler reports its target truthfully, each returned value is minus the loss of the models at the returned sample.", "quantifier": "for all settings, losses and samplers returning arrays of the requested shapes", "why_tests_cant": "Flattening, inverse transformation, reshaping and masking must agree for all numbers of chains, results and parameters and all patterns of acceptance.", "anchors": ["egenerator/manager/source.py:1228-1253", "egenerator/manager/reconstruction/modules/mcmc.py:174-203"]}
{"id": "C142", "title": "Step sizes of the MCMC", "statement": "The step size handed to the kernel is 0.1 for every parameter, and 0.01 for a parameter to which the logarithm applies when sampling in the transformed space, where both are divided by the parameter's standard deviation; it does not depend on the method. The values which the code lists per parameter (e.g. 10 for the energy) are never used (refuted). Hamiltonian Monte Carlo uses three leapfrog steps and adapts for 80% of the burn-in steps, rounded down.", "quantifier": "for all transformations, settings, results and samplers", "why_tests_cant": "The list of tuned values looks used; only the length of a nested list decides.", "anchors": ["egenerator/manager/source.py:1156-1199"]}
{"id": "C143", "title": "Which MCMC settings work", "statement": "execute succeeds only if all parameters are fitted, there is more than one parameter, the method is one of the three known ones, the earlier result has one event, the logarithm applies at most to the sixth parameter when sampling in the transformed space, and, for Hamiltonian Monte Carlo, there are at least seven parameters and one result (else printing the step sizes fails after the sampling). With six or more parameters these conditions are also sufficient. The setting random_seed has no effect: the random walk always uses the seed 42.", "quantifier": "for all settings, transformations, losses and results; sufficiency for all samplers that succeed with arrays of the requested shapes", "why_tests_cant": "Each failure needs a full manager and a sampling run to show up; the ineffective seed needs all seeds.", "anchors": ["egenerator/manager/source.py:1156-1209", "egenerator/manager/reconstruction/modules/mcmc.py:66-118,120-203"]}
{"id": "C144", "title": "Which configurations of the cascade with systematics can be evaluated", "statement": "get_tensors of SystematicsCascadeModel, given rows with one value per parameter, succeeds if there is a parameter beside the seven of a cascade and DOMEfficiency, DOMEfficiency occurs at most once, 4 * num_latent_models + (number of charge parameters) equals num_filters_list_2[-1] and there are at least two components. Without such a parameter, with two efficiencies or with other numbers of filters it raises ValueError. Surplus columns of the parameter tensor are silently ignored, where the default cascade rejects them.", "quantifier": "for all configurations, batches of events, networks, pulses and charges", "why_tests_cant": "The conditions combine several settings; a failure shows only when the model is evaluated.", "anchors": ["egenerator/model/source/cascade/systematic.py:53-135,338-360,541-547"]}
{"id": "C145", "title": "The DOM efficiency only scales the charge", "statement": "In SystematicsCascadeModel, changing DOMEfficiency scales the expected charge of every DOM (without its constant of 1e-7) by the ratio of the efficiencies and changes neither the mixture components nor the density of any pulse; no other option is needed for that.", "quantifier": "for all configurations with DOMEfficiency as parameter, all batches, networks and efficiencies", "why_tests_cant": "Holds for arbitrary weights of the networks; a test sees a few weights and values.", "anchors": ["egenerator/model/source/cascade/systematic.py:71-72,338-346,387-393"]}
{"id": "C146", "title": "Pulse densities of the cascade with systematics", "statement": "For every event and DOM the density of the pulse time is positive, is the mixture of the components (positive weights with sum one), integrates to 1000 per nanosecond time over all times and does not depend on other pulses or the observed charges. Excluded time windows are ignored: over the times at which a DOM with an excluded window of positive length is read out, the density integrates to less than 1000 (the expectation that exclusions are accounted for is refuted for every window).", "quantifier": "for all configurations, batches, networks, times and windows", "why_tests_cant": "An integral over all times and arbitrary network weights cannot be sampled.", "anchors": ["egenerator/model/source/cascade/systematic.py:522-619"]}
{"id": "C147", "title": "What the networks of the cascade with systematics depend on", "statement": "The first network is given the unit vector and the scaled distance from the vertex to the DOM and the learned variables only; the second one also the direction, transformed energy, opening angle in [0, pi], azimuth in [0, 2 pi) of the direction from the DOM to the vertex, coordinates of the DOM as configured, every further parameter except DOMEfficiency in order, and the output of the first one for the same event and DOM. Shifting vertex time and pulses, other angles for the same direction, or moving detector and vertex together (without coordinates among the inputs) change no result.", "quantifier": "for all configurations, batches, networks, shifts, angles and displacements", "why_tests_cant": "Invariance under all shifts and for all weights is beyond examples.", "anchors": ["egenerator/model/source/cascade/systematic.py:197-360"]}
{"id": "C148", "title": "Charges of the cascade with systematics", "statement": "The expected charge is the exponential of the first output of the second network, times energy / 10000 and relative DOM efficiency if configured, times DOMEfficiency if and only if it is a parameter, plus 1e-7; it is at least 1e-7 for energies and efficiencies that are not negative. Its variance and likelihood are those of the configured distribution (Poisson, negative binomial, asymmetric Gaussian above charge 5).", "quantifier": "for all configurations, batches, networks and observed charges", "why_tests_cant": "Needs all network outputs and, for the distribution, all charges.", "anchors": ["egenerator/model/source/cascade/systematic.py:362-520"]}
{"id": "C149", "title": "Which configurations of the charge quantile cascade can be evaluated", "statement": "get_tensors of ChargeQuantileCascadeModel succeeds for rows with one value per parameter (seven and the snowstorm parameters; no other labels) if num_filters_list[-1] is at least the number of charge parameters, 4 * num_latent_models equals fc_num_filters_list[-1], there is at least one component (one is enough, unlike in the default cascade) and DOMEfficiency is a parameter if the charge is scaled with it; the inputs of the fully connected layers then always have the width they were built for. Otherwise it raises ValueError, KeyError for a missing efficiency, and IndexError or ValueError for other rows.", "quantifier": "for all configurations, batches, networks, pulses and charges", "why_tests_cant": "The conditions combine several settings; a failure shows only when the model is evaluated.", "anchors": ["egenerator/model/source/cascade/charge_quantiles.py:66-132,335-341,566-571"]}
{"id": "C150", "title": "Charges of the charge quantile cascade", "statement": "The expected charge, its uncertainty, variance and the likelihood of the observed charge equal those of the default cascade with the same options whose network has the same charge outputs; the charge is at least 1e-7 for energies and efficiencies that are not negative.", "quantifier": "for all configurations, batches, networks and observed charges", "why_tests_cant": "The equality of two models for all weights and inputs cannot be tested by examples.", "anchors": ["egenerator/model/source/cascade/charge_quantiles.py:334-485", "egenerator/model/source/cascade/default.py:513-658"]}
{"id": "C151", "title": "Densities of the charge quantile cascade", "statement": "pulse_quantile_pdf of a pulse, as a function of its time, is positive, is the mixture of its components (positive weights with sum one) and integrates to 1000 per nanosecond; the time of one pulse changes the density of no other pulse; and if the fully connected layers treat rows separately, the density of a pulse does not depend on other pulses.", "quantifier": "for all configurations, batches, networks, pulses and times", "why_tests_cant": "An integral over all times and arbitrary weights cannot be sampled.", "anchors": ["egenerator/model/source/cascade/charge_quantiles.py:493-649"]}
{"id": "C152", "title": "Components of the charge quantile cascade start with the direct light", "statement": "The fully connected layers are given, for each pulse, the logarithms of its quantile, of the charge of the DOM (one tenth, plus one) and of its share, the outputs of the convolutional layers for the DOM that are not charge outputs, and if configured the same for the expected charge. The components peak 100 ns after direct light from the vertex would arrive, plus 100 ns times the learned offset. The density does not respect causality: every interval before the direct light has a positive probability (refuted for every event).", "quantifier": "for all configurations, batches, networks and pulses", "why_tests_cant": "Holds for arbitrary weights and geometries.", "anchors": ["egenerator/model/source/cascade/charge_quantiles.py:230-246,493-538,544-607"]}
{"id": "C153", "title": "Invariances of the charge quantile cascade", "statement": "Shifting the vertex time together with the pulses of an event, or giving other angles for the same direction, changes no result; the expected charges depend on neither pulses nor observed charges.", "quantifier": "for all configurations, batches, networks, shifts and angles", "why_tests_cant": "Invariance under all shifts and for all weights is beyond examples.", "anchors": ["egenerator/model/source/cascade/charge_quantiles.py:194-331,540-560"]}
{"id": "C154", "title": "Combining the data of the modules", "statement": "Data returned by the handler holds, at the position of each tensor of the combined list, what the module of that tensor delivered for it (None for tensors that do not exist); all modules with existing tensors agree on the number of events; if the filter accepts all events this is returned unchanged, otherwise exactly the accepted events with renumbered indices.", "quantifier": "for all tensor lists, answers of modules and filter masks", "why_tests_cant": "Tensors are sorted by name across modules, so the position in the batch and in the module differ in general; a test fixes one list of names.", "anchors": ["egenerator/data/handler/modular.py:287-425"]}
{"id": "C155", "title": "When files and frames are skipped or refused", "statement": "A file or frame is skipped iff a module with tensors delivers nothing or no event is left by the filter; different numbers of events and the absence of any existing tensor raise ValueError; errors of modules are passed on in a fixed order; a filter that rejects an event although a tensor along the event axis does not exist always raises.", "quantifier": "for all handlers, answers of modules and masks", "why_tests_cant": "The decision depends on the combination of answers of four modules and the filter.", "anchors": ["egenerator/data/handler/modular.py:287-425"]}
{"id": "C156", "title": "The structure of returned data is checked", "statement": "Data is returned only by a configured handler and only if every existing tensor along the event axis has the declared rank and fixed dimensions; data of another structure raises and is never skipped. Vector tensors are not checked. Additional positional arguments always raise TypeError.", "quantifier": "for all handlers, shapes and data", "why_tests_cant": "Shapes and declared dimensions are arbitrary.", "anchors": ["egenerator/data/handler/base.py:204-277", "egenerator/data/handler/base.py:410-434", "egenerator/data/handler/modular.py:516-578"]}
{"id": "C157", "title": "What frames yield", "statement": "Reading a frame returns the checked data, with the zero of its type in place of a tensor that does not exist, in agreement with the shapes and types announced for the data set; converting to tensors changes nothing but raises TypeError for a frame that is skipped.", "quantifier": "for all handlers, frames and tensor lists", "why_tests_cant": "The skipping of frames depends on their content and on all modules.", "anchors": ["egenerator/data/handler/base.py:303-387", "egenerator/data/handler/base.py:1132-1148"]}
{"id": "C158", "title": "Writing data to frames", "statement": "Every module is handed exactly the entries of its own tensors in the order of its own list, data before labels, miscellaneous and weights; writing what was read gives back to every module what it delivered.", "quantifier": "for all handlers and data", "why_tests_cant": "The order of the entries results from sorting names across modules.", "anchors": ["egenerator/data/handler/modular.py:580-609", "egenerator/data/handler/base.py:457-474"]}
{"id": "C159", "title": "Configuring the data handler", "statement": "A configured handler holds exactly the tensors of its four modules under pairwise different names. Only the first three patterns of test files matter. With any module without tensors (the only weight module there is), configuring on test files always fails. A handler whose modules were loaded in a failed attempt can never be configured again; an earlier failure leaves it unchanged.", "quantifier": "for all configurations, module classes and files", "why_tests_cant": "The claim is about all configurations and all later attempts.", "anchors": ["egenerator/data/handler/base.py:70-154", "egenerator/data/handler/modular.py:106-230", "egenerator/data/modules/weights/dummy.py:13-67", "egenerator/data/modules/misc/dummy.py:13-67", "egenerator/data/modules/labels/dummy.py:13-67"]}
{"id": "C160", "title": "Names and indices of source parameters", "statement": "For a configured source, get_index(name) is the last position of the name in parameter_names and KeyError for unknown names; get_name(index) is the name at that position for 0 <= index < num_parameters and KeyError otherwise, also for negative indices. get_name(get_index(n)) == n always; get_index(get_name(i)) == i for all i exactly if all names are different. Attaching names to a tensor is refused with ValueError unless it has as many columns as there are names; then params[name] is the column get_index(name). Before configuring, get_index and get_name raise ValueError.", "quantifier": "all lists of names, with repetitions, all indices and all tensors", "why_tests_cant": "Tests look up a few names of one model; the law relates all names, indices and columns, including repeated names.", "anchors": ["egenerator/model/source/base.py:10-26", "egenerator/model/source/base.py:205-261", "egenerator/model/base.py:202-228"]}
{"id": "C161", "title": "Parameter names of independent sources", "statement": "If no source name followed by an underscore begins another source name, and the names within each base are different, then all parameter names of an independent multi source are different and the value found under '<source>_<parameter>' is the one the source receives for that parameter. Without this condition names can collide, and the value found under a name is one that goes to another source.", "quantifier": "all configurations, base sources and inputs", "why_tests_cant": "The collision only occurs for particular combinations of names; tests use one such combination.", "anchors": ["egenerator/model/multi_source/independent.py:25-96", "egenerator/model/multi_source/base.py:229-237"]}
{"id": "C162", "title": "Configuring a source made of several sources", "statement": "With configured base sources and transformer, and settings from which the parameters can be determined, configure succeeds; the source then has these parameters, sources and settings, and its sub-components are the very dictionary passed as base_sources, into which the transformer is written. The configuration recorded for 'data_trafo' is that of the transformer only if the dictionary had no such entry before. Unconfigured base sources or transformers (ValueError) and settings the mapping rejects (its exception) are refused without changing the dictionary; passing None explicitly for data_trafo or name is always refused.", "quantifier": "all dictionaries of base sources, settings, names and mappings of derived classes", "why_tests_cant": "The effect on the caller's dictionary and on the recorded configuration is not visible in the outputs tests look at.", "anchors": ["egenerator/model/multi_source/base.py:141-245", "egenerator/manager/component.py:581-710"]}
{"id": "C163", "title": "Reusing a dictionary of base sources, and loading", "statement": "Of two multi sources configured with the same dictionary, the later one decides which transformer both use; if it is given none, it uses the one of the first; both have recorded the first transformer's configuration. Models of tracks and muons refuse such a used dictionary with ValueError. A multi source whose bases are not called 'data_trafo' and which was configured with a transformer can be rebuilt when loading, with the same name, parameters and sources; one configured without a transformer can not be loaded (KeyError) nor evaluated (AttributeError). A base source called 'data_trafo' is replaced by the transformer.", "quantifier": "all dictionaries, transformers and sequences of two configure calls", "why_tests_cant": "Needs sequences of calls that share objects, which unit tests with fresh fixtures do not exercise.", "anchors": ["egenerator/model/multi_source/base.py:203-245", "egenerator/model/multi_source/base.py:296-311", "egenerator/model/multi_source/base.py:544-599"]}
{"id": "C164", "title": "The check of source parameters", "statement": "check_source_parameter_creation passes exactly if for every source the base exists, parameters were created, their number is that of the base, and (in graph mode, unless there are none) the tensor as a whole depends on the input; otherwise it raises for the first source at fault (KeyError for missing bases or parameters, ValueError else). It does not find single parameters that are constant or come from elsewhere.", "quantifier": "all graphs, sources and numbers of parameters", "why_tests_cant": "The set of graphs is infinite; tests feed a few.", "anchors": ["egenerator/model/multi_source/base.py:601-714"]}
{"id": "C165", "title": "train_model: when a saved model is restored, asked about or deleted", "statement": "The training script looks for configuration.yaml in 'manager_dir' after the configuration was read and the loss and evaluation modules were built. With 'restore_model' and such a file, the manager is loaded from that directory and nobody is asked; without the file a new manager is built whatever 'restore_model' says, and nothing is asked or deleted. Without 'restore_model' the user is asked about an existing model: if they decline, ValueError is raised and no file has changed; if they agree, the whole directory is deleted before the new manager is built. If the configuration, the loss or the evaluation module fails, nothing has happened.", "quantifier": "all configurations, file systems, answers of the user, and behaviours of the modules and managers", "why_tests_cant": "Tests try a few directories; that no order of failures deletes or loads something else is a statement about all of them.", "anchors": ["egenerator/train_model.py:34-90"]}
{"id": "C166", "title": "train_model: which files can be changed", "statement": "However the training script ends, files outside 'manager_dir' and outside the directory recorded by the trained manager are unchanged; restoring changes only the directory that the manager has recorded. That an existing model survives if building its replacement fails is refuted: it is deleted first.", "quantifier": "all configurations, file systems, answers and outcomes, including failures at any step", "why_tests_cant": "Needs all files and all ways in which a run can end.", "anchors": ["egenerator/train_model.py:63-100", "egenerator/manager/base.py:676-866"]}
{"id": "C167", "title": "train_model: where a trained model is found", "statement": "After training, the files of the manager are in its recorded directory without extension. In a directory without extension the weights can always be saved and the script ends as the training loop does; in a directory with an extension ('v1.2') the first saving of weights raises IOError. Refuted: that a model saved to a directory with an extension is found again by 'restore_model' (a new one is built and overwrites it), and that a copied model is trained at its new place (the original is changed, the copy stays as it is).", "quantifier": "all directory names, managers, training loops and file systems", "why_tests_cant": "The effect appears only for some directory names and only after hours of training.", "anchors": ["egenerator/train_model.py:60-100", "egenerator/manager/base.py:676-720", "egenerator/manager/component.py:823-835", "egenerator/model/base.py:380-411"]}
{"id": "C168", "title": "export_manager: what is asked, deleted and written", "statement": "The user is asked exactly if something exists at the output directory; declining changes nothing. A successful export contains the models of all config files in their order, the data handler and transformer of the last one, all files of the joint manager and a copy of the reconstruction's configuration, nothing else, and changes no file elsewhere. With an extension in the output directory's name the export always fails. A confirmed deletion comes first: if anything fails before saving, the old content is lost; config files and models inside the output directory are deleted before they are read; without config files the directory is deleted before IndexError or UnboundLocalError.", "quantifier": "all config files, output directories, answers and file systems", "why_tests_cant": "The damage depends on where directories lie relative to each other, which tests do not enumerate.", "anchors": ["egenerator/export_manager.py:44-106"]}
{"id": "C169", "title": "create_trafo_model: nothing is overwritten without consent", "statement": "If something exists at 'model_dir' without its extension, the user is asked; declining changes nothing. Otherwise the transformer is configured before anything is written, so a failure leaves all files as they were, and afterwards exactly the files of the transformer are written there.", "quantifier": "all configurations, file systems, answers and transformers", "why_tests_cant": "Needs all files and both answers.", "anchors": ["egenerator/create_trafo_model.py:28-58"]}
{"id": "C170", "title": "reconstruct_test_data: which managers and modules are used", "statement": "The script changes no file. It uses managers loaded from the directories named by the config files, each with the seed module replaced if there is a seed other than 'x_parameters' and the label and data modules replaced if the settings ask for it, joined under the settings of the reconstruction's configuration. With 'restore_model' it first refuses a 'manager_dir' without saved model, although nothing is loaded from there; that 'restore_model: False' builds a new model is refuted.", "quantifier": "all configurations, lists of config files and file systems", "why_tests_cant": "Which modules are used cannot be seen from results of a few runs.", "anchors": ["egenerator/reconstruct_test_data.py:39-175"]}
{"id": "C171", "title": "Models saved together stay together", "statement": "After any sequence of successful saves of a manager, the directory of every source, also inside multi sources, has exactly the checkpoints of these saves, with the same numbers. A number loads the save of that number for all sources if it is still kept (as C25 says) and otherwise raises KeyError for the first source, changing nothing. Without a number the weights and counters of the last save are restored in all sources, by load_weights and by load. A further save without a number of steps succeeds as long as no variables were added.", "quantifier": "all managers of nested models, directories without extension, sequences of saves and changes of weights in between", "why_tests_cant": "Needs all histories of saves and all trees of models.", "anchors": ["egenerator/manager/base.py:260-406", "egenerator/model/multi_source/base.py:425-542", "egenerator/model/base.py:230-378"]}
{"id": "C172", "title": "A save that is interrupted between models", "statement": "Whenever save_weights stops or raises, the models before (in the order of the dictionaries) have the new checkpoint, those after are untouched, and at most one is in between; every such point is reached by some crash. Afterwards loading without a number gives the new weights for the first models and those of the previous save for the others, without any error; that the newest checkpoint is of one time is refuted. All later saves are one number apart: a number loads save j for the first models and save j+1 for the others, while the newest checkpoint is consistent again after the next save.", "quantifier": "all managers, histories of saves, crash points and later saves", "why_tests_cant": "Crashes between two files of different models are not produced by tests.", "anchors": ["egenerator/manager/base.py:260-328", "egenerator/model/multi_source/base.py:425-493"]}
{"id": "C173", "title": "Loading weights is not all or nothing", "statement": "load_weights assigns the variables source by source: those before the first failing one have the loaded weights, the failing one and those after keep theirs, and its exception is raised. After an interrupted save the interrupted number raises KeyError while the first models are changed.", "quantifier": "all managers, directories, numbers and file contents", "why_tests_cant": "Needs directories of different models that disagree.", "anchors": ["egenerator/manager/base.py:359-384", "egenerator/model/multi_source/base.py:495-520", "egenerator/model/base.py:535-603"]}
{"id": "C174", "title": "Step counters of training", "statement": "Training increases the counter of the models of the manager by the number of iterations, and leaves the counters of sources inside multi sources. Counters of sources go on after saving and loading; a multi source starts again with one, so that the step of its summaries (taken from the first model) repeats; that the counter is restored is refuted.", "quantifier": "all managers, numbers of iterations and changes of variables", "why_tests_cant": "Tests do not continue a training of a multi source.", "anchors": ["egenerator/manager/base.py:777-784", "egenerator/model/base.py:112-128", "egenerator/model/multi_source/base.py:544-599"]}
{"id": "C175", "title": "Training settings and directories of sub models", "statement": "save_weights accepts a number of training steps once a save had training settings, and before raises IOError without writing anything. Settings saved by save_training_settings do not reach the sources inside multi sources, for which a number of steps is then refused. save and load take an extension off the name of a source inside a multi source, save_weights and load_weights do not: with such a name the first checkpoint of a training raises IOError, and weights saved without a number of steps are not those that load restores.", "quantifier": "all managers, names, histories and arguments", "why_tests_cant": "Which of many directories are written depends on all names.", "anchors": ["egenerator/manager/base.py:260-406", "egenerator/model/base.py:380-533", "egenerator/manager/component.py:824-859"]}
{"id": "C176", "title": "The check that no variables were added", "statement": "save_weights of a configured model with models inside passes its check exactly if no variable is shared between the model and its sub models or between two sub models. After load_weights has rebuilt the model, the check passes exactly if there are no models inside; that a loaded model can be saved again is refuted.", "quantifier": "all trees of modules and variables, whatever their names", "why_tests_cant": "Tests have no model with models inside.", "anchors": ["egenerator/model/base.py:112-136", "egenerator/model/base.py:288-296", "egenerator/model/base.py:553-603"]}
{"id": "C177", "title": "Likelihood scans show the loss around the truth", "statement": "A scan that succeeds with minimize_in_trafo_space writes one figure per parameter name, with lines at the true and the best-fit value of the parameter, levels at the losses of truth and best fit, and a thousand values of the parameter, equally spaced in units of the standard deviation of the training data from one below the truth to one above, at each of which the two curves are the losses of truth and best fit with only this parameter replaced. It succeeds whenever all parameters are fitted, the batch has one event, the losses can be evaluated, there are no more names than parameters and the template has no other field.", "quantifier": "For all transformations, losses, events, best fits, names and templates (for values which TensorFlow does not clip).", "why_tests_cant": "The figures are only looked at, and a test would fix the transformation and the number of parameters.", "anchors": ["egenerator/manager/reconstruction/modules/visualization.py:84-262"]}
{"id": "C178", "title": "Likelihood scans that are refused", "statement": "If any parameter is held in the fit, a scan of an event ends with an exception and writes no figure, whatever the fit returned. Batches which are not of one event are refused by an assertion. A missing result or a missing covariance is a KeyError, and a covariance that is present has no effect on the figures.", "quantifier": "For all settings, events and results.", "why_tests_cant": "Combinations of held parameters, batch sizes and keys.", "anchors": ["egenerator/manager/reconstruction/modules/visualization.py:57-59", "egenerator/manager/reconstruction/modules/visualization.py:84-120", "egenerator/manager/reconstruction/modules/visualization.py:155-158"]}
{"id": "C179", "title": "The range of a likelihood scan", "statement": "The points of a scan are strictly increasing, the truth lies strictly between the first and the last of them but is never itself a point: the nearest points are at least 1/999 standard deviation away. The best fit lies within the range exactly if it is at most one standard deviation from the truth, so it need not be in the figure (refuted by an event whose best fit lies beyond all points).", "quantifier": "For all transformations, events and parameters, logarithmic or not.", "why_tests_cant": "A statement on exact positions for all transformations; a run shows one grid.", "anchors": ["egenerator/manager/reconstruction/modules/visualization.py:162-196"]}
{"id": "C180", "title": "Likelihood scans with minimize_in_trafo_space off", "statement": "With minimize_in_trafo_space off a scan evaluates the losses at values in units of the standard deviation, as if they were parameters: the level of the truth is the loss at the transformed truth, both curves replace a parameter by a transformed value, and the line of the best fit is the inverse transformation of the untransformed result. Only the level of the best fit is right. That the level of the truth is its loss and the line of the best fit is at the best fit is refuted.", "quantifier": "For all transformations, losses and events.", "why_tests_cant": "No exception is raised, and a figure looks plausible.", "anchors": ["egenerator/manager/reconstruction/modules/visualization.py:66-82", "egenerator/manager/reconstruction/modules/visualization.py:143-222"]}
{"id": "C181", "title": "Files of likelihood scans", "statement": "Over a sequence of events the counter in file names counts the events scanned without an exception, and a file exists exactly if some parameter and event have its name. Different events have different files if the template has the counter, different parameters if it has the parameter name; with the template of the test reconstruction all figures are kept, in files of their own. Without the counter only the figures of the last event remain, without the parameter name only that of the last parameter. A template with the parameter name directly followed by the counter can give two figures the same file (refuted that both fields suffice). A template with another field writes nothing.", "quantifier": "For all templates, names, numbers of events and counters beyond the padded width.", "why_tests_cant": "Clashes need particular names and counters, and lost files raise nothing.", "anchors": ["egenerator/manager/reconstruction/modules/visualization.py:112-120", "egenerator/manager/reconstruction/modules/visualization.py:259-262", "egenerator/manager/source.py:1352-1353"]}
{"id": "C182", "title": "Coordinates of a DOM by string and number", "statement": "get_dom_coords(string, dom) returns the coordinates of that DOM in the table of all DOMs for strings 1 to 78 and DOMs 1 to 60; it raises AssertionError outside of the documented ranges (strings 1 to 86, DOMs 1 to 60), and KeyError for the strings 79 to 86, although these are inside the documented range and their coordinates are in the table. The flat lists fill the arrays of shape [86, 60, 3] and [10, 10, 60, 3] exactly.", "quantifier": "for all integers string and dom; for all entries of the tables", "why_tests_cant": "the tables have 15480 and 18000 numbers; spot checks say nothing about the rest, nor about the integers outside of the ranges", "anchors": ["egenerator/utils/detector.py:247-266", "egenerator/utils/detector.py:13", "egenerator/utils/detector.py:27"]}
{"id": "C183", "title": "Places of the strings on the square grid", "statement": "string_hex_coord_dict and hex_coord_string_dict are inverse to each other; get_matrix_indices gives a place inside of the 10 x 10 grid exactly for the strings 1 to 78 (KeyError otherwise), and no two strings share a place; the mask of real DOMs is true exactly at the places of strings; the coordinates on the grid are those of the string at that place and zero where there is none.", "quantifier": "for all integers and all places of the grid", "why_tests_cant": "consistency of four tables entered by hand, over all strings, places and DOMs", "anchors": ["egenerator/utils/detector.py:239-244", "egenerator/utils/detector.py:269-275"]}
{"id": "C184", "title": "DOM from rounded coordinates", "statement": "dom_coord_dict maps the coordinates of each DOM, rounded to metres (half to even), to exactly that DOM, and has no other keys: no two DOMs share their rounded coordinates, so none is overwritten while the dictionary is filled.", "quantifier": "for all DOMs and all triples of integers", "why_tests_cant": "a collision of two of the 5160 keys silently loses a DOM; only a check of all pairs excludes it", "anchors": ["egenerator/utils/detector.py:14-19"]}
{"id": "C185", "title": "Efficiencies and mask of bad DOMs", "statement": "Each of the 86 x 60 DOMs has relative efficiency 1 or 1.35; the table without bad DOMs has the same number where bad_doms_mask is true and zero where it is false; 77 DOMs are masked out.", "quantifier": "for all DOMs", "why_tests_cant": "two tables of 5160 numbers entered by hand; a shifted or missing entry is not seen by spot checks", "anchors": ["egenerator/utils/detector.py:42-129", "egenerator/utils/detector.py:132-219", "egenerator/utils/detector.py:227"]}
{"id": "C186", "title": "Noise rates of the DOMs", "statement": "dom_noise_rates[s, om] is the rate of the dictionary for string s+1 and DOM om+1, and zero if it has none or one that is not a number; the dictionary names no DOM twice. No rate is negative; masked DOMs have rate zero; of the DOMs in use exactly two (string 33 DOM 6 and string 45 DOM 19) have rate zero, since their entry is not a number. The noise model expects a charge of 1e-7 there for every window, weight and exclusion, and more at all DOMs with a rate.", "quantifier": "for all DOMs, windows, weights, exclusions and pulses", "why_tests_cant": "which of the 5160 DOMs have no noise follows from two tables together, and its effect must hold for all windows and weights", "anchors": ["egenerator/utils/detector.py:29-38", "egenerator/utils/dom_noise_rates.py:7", "egenerator/model/source/noise/default.py:158-163"]}
{"id": "C187", "title": "Configuration of the module for pulses", "statement": "Without a list of tensors, configure succeeds exactly if pulse_key is a string and float_precision names an attribute of numpy (TypeError and ValueError otherwise). The module then has exactly seven tensors with the documented shapes, precisions and links; x_dom_exclusions and the two tensors of time exclusions exist exactly if their key is not None. A list of tensors passed as config_data is accepted exactly if it equals these tensors: the tensors of another module fit exactly if precision, quantiles and the presence of the keys of exclusions agree, whatever the keys are called.", "quantifier": "for all arguments, all numpy attributes and all lists of tensors", "why_tests_cant": "all combinations of keys, precisions and lists of tensors", "anchors": ["egenerator/data/modules/data/pulse_data.py:41-196", "egenerator/data/tensor.py:8-240"]}
{"id": "C188", "title": "Compatibility of modules for pulses", "statement": "Two modules are compatible exactly if config_data, float_precision and add_charge_quantiles are equal, before and after any updates of the keys. If both were configured with lists of tensors, compatible modules have equal tensors. If not, this fails: a module that reads excluded DOMs and one that does not are compatible although their tensors differ.", "quantifier": "for all pairs of modules and all sequences of updates", "why_tests_cant": "pairs of arbitrary modules with arbitrary histories", "anchors": ["egenerator/data/modules/data/pulse_data.py:182-196", "egenerator/manager/component.py:322-377"]}
{"id": "C189", "title": "Changed keys of the module for pulses", "statement": "After any sequence of calls of update_mutable_settings the tensors and flags are those of the configuration, and reading of frames and files is that of a module configured anew with the settings of the last complete update, provided that keys of exclusions given at the configuration still have values; keys not given then stay without effect (so an added key is ignored silently, although the module is compatible with one configured with it). A key that was given cannot be removed: frames raise TypeError and every file is skipped. An update with an unknown name raises KeyError and changes nothing that is read, but what it stored takes effect with the next update.", "quantifier": "for all modules, sequences of updates, frames and files", "why_tests_cant": "arbitrary histories of updates including failed ones", "anchors": ["egenerator/data/modules/data/pulse_data.py:41-255", "egenerator/data/modules/data/pulse_data.py:422-476", "egenerator/manager/component.py:209-225"]}
{"id": "C190", "title": "What batches are made of", "statement": "Whatever the files contain and in whatever order they are read, a batch has one array for each tensor; the rows of each array are rows of that tensor in the files (never rows of another tensor), or the array consists of placeholders of zero and some file lacks the tensor.", "quantifier": "for all files, orders, sizes of batches and properties of rows", "why_tests_cant": "arbitrary files, kinds of tensors and leftovers between files", "anchors": ["egenerator/data/handler/base.py:800-1020"]}
{"id": "C191", "title": "Batches of a tf.Dataset", "statement": "If all files have the tensors that exist with their declared shapes and lack the others, the dataset delivers every batch that the generator yields. Whatever the files contain, delivered batches have one array for each tensor, and all rows of tensors that exist have the declared shape; the first batch that does not fit ends the iteration with TypeError. A tensor with further axes which one file in each group lacks makes the first batch fail. A missing tensor that is declared with one number per event is not noticed: the dataset delivers zeros. No dataset is made if a tensor has a type that TensorFlow does not have (AttributeError) or exists with a negative axis (ValueError). If the first axis of a tensor is declared with a fixed length, only batches with this number of rows are delivered.", "quantifier": "for all tensors, files, groups and sizes of batches", "why_tests_cant": "arbitrary contents of files and declared shapes", "anchors": ["egenerator/data/handler/base.py:1022-1130"]}
{"id": "C192", "title": "Minimum of the circularised fit", "statement": "get_circularized_estimate looks for the minimum of a function of sigma. If each point at an angle agrees with a width (its probability by Wilks' theorem is that of a circular normal distribution of that width, and each probability strictly between 0 and 1 has exactly one), the function has a minimum between the smallest and the largest of these widths, and every minimum lies between them up to its sign; if all agree with one width, that width and its negative are the only minima. If no other direction has a larger loss, there is no minimum and larger widths are always better; if all probabilities are rounded to one, there is none either and smaller widths are always better; if all points are at angle zero, every number is a minimum.", "quantifier": "for all points, losses, widths and distribution functions", "why_tests_cant": "existence and position of minima of a function over all real numbers", "anchors": ["egenerator/manager/reconstruction/modules/opening_angle.py:327-356", "egenerator/utils/basis_functions.py:509-524"]}
{"id": "C193", "title": "Covariances of several models", "statement": "Losses of the models of a manager are added, also for derivatives: the Hessian is the sum of the Hessians of all models, and outer products are formed from sums of derivatives over models if the losses have terms of the same shapes. A later model with more terms than the first raises IndexError; terms that a later model lacks are those of the models before. With k copies of one model the covariances from the Hessian (cov, cov_trafo) are those of a single model divided by k, so that the same model given twice halves the variances, whereas the sandwich estimates (cov_sand, cov_sand_trafo) do not change.", "quantifier": "for all models, terms, numbers of copies and parameters", "why_tests_cant": "arbitrary losses and numbers of models; needs linear algebra for all matrices", "anchors": ["egenerator/manager/source.py:130-156", "egenerator/manager/source.py:295-478", "egenerator/manager/reconstruction/modules/covariance.py:93-175"]}
{"id": "C194", "title": "Shapes of the Hessian", "statement": "The module for covariances works for batches of exactly one event and raises otherwise. For a model with a single parameter it raises ValueError although the fit succeeded, because the Hessian loses all its axes; for other numbers of parameters the matrices are those of the Hessian and of the outer products of all models.", "quantifier": "for all batch sizes, numbers of parameters and models", "why_tests_cant": "arbitrary shapes", "anchors": ["egenerator/manager/source.py:454-478", "egenerator/manager/reconstruction/modules/covariance.py:93-175"]}
{"id": "C195", "title": "A failed load can be repeated on the same object", "statement": "If loading a component raises, the object stays unconfigured and load may be called on it again, also from another directory. A new attempt without modified sub-components raises exactly when it would on a fresh object, with the same exception; when it succeeds, configuration, data and every recorded sub-component are those a fresh object would get. When all attempts read the same configuration file (e.g. a missing file was restored), the object ends up exactly like a fresh one. The expectation that its sub-components are always exactly the recorded ones is false: sub-components loaded by a failed attempt from another directory stay behind under their names (each of them fully loaded and configured), and with modified sub-components they can make an attempt fail which would succeed on a fresh object.", "quantifier": "all sequences of failed attempts (directories, states of the disk, modifications), all later attempts without modifications", "why_tests_cant": "a test repeats one failure with one pair of directories; the claim ranges over every history of failed attempts and every state of the disk at each of them", "anchors": ["egenerator/manager/component.py:861-999", "egenerator/manager/component.py:497-511"]}
{"id": "C196", "title": "Saving and loading again removes what failed attempts left behind", "statement": "A component saved to a directory, loaded from there into an object on which earlier loads had failed, saved again to any other place and loaded into a fresh object is the component first saved. Sub-components which the failed attempts left behind are written to disk with the object, but they are not read back.", "quantifier": "all components, all histories of failed loads, all directories and states of the disk", "why_tests_cant": "the chain of operations ranges over all trees of components and all failures before it; a test fixes one tree and one failure", "anchors": ["egenerator/manager/component.py:780-859", "egenerator/manager/component.py:861-999"]}
{"id": "C197", "title": "What a failed load does to the caller's dictionary of modifications", "statement": "When load raises, either nothing was loaded and the dictionary of modified sub-components is as the caller passed it, or the entries of the sub-components loaded so far have been taken out of it (and possibly the one at which it stopped) and all other entries are untouched. If all entries were taken out, repeating the call with the same dictionary loads the object exactly as if no modification had been requested. The expectation that a repeated call which returns has used the requested sub-component is false.", "quantifier": "all dictionaries of modifications, objects, directories, states of the disk and points of failure", "why_tests_cant": "the entries lost depend on where the first attempt stopped; a test fixes one failure and one dictionary", "anchors": ["egenerator/manager/component.py:940-999"]}
