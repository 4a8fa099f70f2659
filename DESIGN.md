# Formal model of event-generator: design

The subject is the Python package in `/repo/egenerator` at the pinned commit.
The code was read as text, never run.  Every definition of the model cites the
file and lines it models.  Properties are listed in `properties.jsonl`, the
mapping property -> theorems in `MANIFEST.json`, seeded-bug experiments in
`seeded/LOG.jsonl`, the axioms of each theorem in `ASSUMPTIONS.md`.

## Layout (`rocq/theories`)

* `Py.v`, `PyStr.v` - shared Python vocabulary: exceptions as values (`result`),
  dictionaries as insertion-ordered association lists, values, strings.
  `PyFacts.v`, `PyStrFacts.v` - lemmas about them.
* `RList.v` - sums, means and element-wise operations of lists of reals,
  comparisons of reals as booleans.
* `M_<Area>.v` - the model of one area of the code: Gallina functions which
  follow the code branch by branch, no proofs, each definition with a citation
  and, where it simplifies, a remark saying so.
* `S_<Area>.v` - the independent specification: relations and functions that
  say what a user expects and do not use the helpers of the model.
* `L_<Area>.v` (and `L_Load`, `L_Replace`, `L_Update`, `L_Crash`, `L_Filter`,
  `L_Batching`, `L_Hang`) - lemmas.
* `S_Likelihood`/`T_Likelihood` (losses as likelihoods), `S_Simplex`/`L_Simplex`/
  `T_Simplex` (steps of the optimiser) and `S_GofRun` (run of the goodness of
  fit) are further specifications and theorems about the models `M_Loss`,
  `M_Opt` and `M_Gof`.
* `T_<Area>.v` - the property theorems `Cnn_...`, `Example`s which show that the
  hypotheses are met by concrete cases, and `Print Assumptions` of each theorem.

Where the code violates what a user would expect, the exact behaviour of the
code is proved for all inputs and the expectation is refuted by a theorem named
`..._refuted` with a concrete witness.  Behaviour given from outside (random
numbers, minimisers, neural networks, hooks of sub-classes, scheduling of
processes, crash points) is universally quantified; assumptions about it are
hypotheses of the theorem.

## Areas: code, properties, method

| area | code | properties | method |
|------|------|------------|--------|
| Config | `manager/component.py` l.17-377 `Configuration` | C01, C02, C04 | finite trees, nested induction, inductive relation as specification |
| Component | `manager/component.py` l.380-1063 `BaseComponent`: configure, save, load; the `_update_sub_components` overrides of `data/handler/modular.py` and `model/base.py`; `settings/version_control.py` | C03, C05-C12 | file system as finite map, saving as list of writes so that a crash is a prefix; hooks of sub-classes arbitrary; induction over component trees |
| Tensor | `data/tensor.py` | C13, C14 | sorting and permutation |
| Batch | `data/handler/base.py` batch/event structure and batching loop, `modular.py` `_filter_data` | C15-C17, C61, C62 | refinement to list operations, loop invariants |
| Pipeline | `data/handler/base.py` l.565-1020 | C18-C21, C63 | labelled transition system of workers, batching process and consumer in any interleaving; invariants over all traces; states that never end as closed sets; witnesses as explicit traces |
| Trafo | `data/trafo.py` | C22-C24, C64 | exact reals, induction over the data sequence |
| Checkpoint | `model/base.py` l.230-603 | C25-C27, C65 | directory with operations, crash points as prefixes, invariants over histories |
| Train | `manager/base.py` training loop, training step, regularisation, ensemble; `utils/learning_rate.py` | C28, C29, C56, C57, C60, C66 | fold over iterations; late and early binding of closures explicit |
| Source | `model/multi_source/base.py`, `independent.py`, `track/stochastic_track.py`, `muon/default.py`, `data/modules/labels/cascades.py` (shift to the maximum) | C30-C33, C67 | mixture sums over sources, base sources arbitrary |
| Pulse | `data/modules/data/pulse_data.py` | C34-C36, C68-C71 | fold over pulses, conservation laws |
| Setup | `settings/setup_manager.py` | C37, C72, C73 | merge of configuration files, induction over definitions |
| Loss, Likelihood | `loss/default.py`, `loss/multi_loss.py`, `loss/snowstorm.py` | C38-C42, C74-C76, C97 | tensors as functions of indices, sums over reals, log-Gamma arbitrary |
| Sphere, Opt, Simplex | `utils/spherical_opt.py` | C43-C46, C77-C80, C98 | objective and random numbers arbitrary, invariants of the loop |
| Tray | `manager/reconstruction/tray.py` | C47, C50 | induction over modules |
| Reco | `manager/source.py` (objective, interfaces to minimisers), `reconstruction/modules/reconstruction.py`, `covariance.py`, `utils/trafo.py` | C48, C49, C51, C81-C86 | minimisers arbitrary |
| Basis | `utils/basis_functions.py` | C59, C87-C90 | Coquelicot derivatives and integrals; erf and log-Gamma through their defining properties |
| Gof | `reconstruction/modules/fit_quality.py` | C52, C53, C91-C94, C99 | random numbers arbitrary |
| Seed | `data/modules/misc/seed_loader.py`, `data/modules/filters/general_filter.py` | C54, C55 | induction over parameters, seeds and constraints |
| Angles | `utils/angles.py`, `reconstruction/modules/opening_angle.py` | C58, C95, C96 | vector algebra over reals |

The table is kept current with the model; areas added later are listed below it
in the section of later areas.  No property of the list is left out.

## Trusted base

* The kernel of Coq 8.16.1.  No kernel check is switched off, no plugin used.
* Axioms: exactly those printed by `Print Assumptions`, collected for every
  theorem in `ASSUMPTIONS.md` (generated by `tools/assumptions.py`).  They are
  the axioms of the standard library's real numbers
  (`ClassicalDedekindReals.sig_not_dec`, `ClassicalDedekindReals.sig_forall_dec`,
  `FunctionalExtensionality.functional_extensionality_dep`) and
  `Classical_Prop.classic`, which the standard library uses in its lemmas about
  reals.  Theorems of areas without reals are closed under the global context.
  Coquelicot is used in `Basis`, `Noise`, `Cascade` and `Simulation`; it adds no axiom.
* The reading of the Python code, see below.
* The numbers of the detector: `tools/detector_data.py` reads the tables of
  `utils/detector.py` and `utils/dom_noise_rates.py` as text and writes them as
  exact decimals to `M_DetectorData.v`.

## What is not modelled

* Floating point: numbers are exact reals (or integers).  Rounding, overflow,
  NaN and dtypes are left out, except where a definition represents NaN or a
  cast explicitly (for example the truncation of C46 and NaN vectors in C58).
* TensorFlow: kernels, graph building, automatic differentiation, placement.
  Concrete functions are called with arguments of their signature.  Outputs of
  neural networks are arbitrary.
* Encodings: YAML, pickle and HDF5 files are what their readers return; writing
  and reading back is the identity.
* IceTray frames beyond lookup of keys and attributes.
* Logging, printing, timing, progress bars.
* `data/modules/labels/muons.py` (its constructor refers to a class that is not imported), colours and labels of figures, and `ic3/*` and the single-source models
  (`model/source/*`) apart from what the section of later areas lists.

Simplifications of single definitions are stated in the comment of the
definition and in the head of the `M_` file.

## Later areas

| area | code | properties | method |
|------|------|------------|--------|
| Noise | `model/source/noise/default.py` | C100-C103 | windows as lists of intervals, live time as a measure, Riemann integrals of step densities |
| Cascade | `model/source/cascade/default.py` | C104-C111 | network arbitrary, slices of its output as list operations, integrals of the mixtures of asymmetric Gaussians from `Basis` |
| Simulation | `ic3/simulation.py`, `get_model_tensors_function` of `manager/source.py` | C112-C115 | trees of particles by structural induction, random numbers as functions of cascade and DOM, distribution of times by integrating the selection of components |
| TestReco | `reconstruct_testdata` of `manager/source.py` (fits, losses, covariances given from outside) | C116-C118 | results of the modules by induction over the tray, batches by induction, columns as insertions into an ordered dictionary |
| Frame | `EventGeneratorReconstruction` of `ic3/reconstruction.py` (manager, modules, batches given from outside; frames refuse keys they have) | C119-C121 | writes to maps as folds over ordered dictionaries, objects of a frame as appended lists |
| Labels | `data/modules/labels/cascades.py`, `snowstorm_cascades.py`, `snowstorm_tracks.py`, `snowstorm_track_segment.py` | C122-C128 | tables as dictionaries of columns, masks as filters, columns and rows related entry by entry; flights of cascades as in `Source` |
| Segment | `model/source/track/stochastic_segment.py` (network and data transformer given from outside; float arithmetic as reals with an explicit NaN for the quotient by the length) | C129-C133 | bounds on the softplus function, feet of perpendiculars and Cherenkov points by their defining equations, densities by reduction to `Cascade` |
| Build | `utils/build_components.py`, `utils/configurator.py`, `manager/base.py` l.23-183, `loss/multi_loss.py` l.30-79 (settings of TensorFlow left out; `_configure` of classes other than managers and sums of losses given from outside; components as in Component) | C134-C138 | exact characterisations (iff) of what each function builds, inversion of the configurator, the replacement theorem of Component for nested modules, witness by computation for C135 |
| Mcmc | `manager/source.py` l.1076-1253, `manager/reconstruction/modules/mcmc.py` (`tfp.mcmc.sample_chain` with kernels and random numbers given from outside; exact reals; printed text left out, its errors kept) | C139-C143 | the kernel, start and schedule handed to the sampler are characterised for every successful run; row-wise inverse transformation from Reco; witnesses with seven parameters for C140 and C142 |
| Systematic | `model/source/cascade/systematic.py` (both networks arbitrary functions of the inputs of the batch; exact reals; vertex not at a DOM; excluded windows are never read) | C144-C148 | the source is shown equal to the default cascade with a suitable network for the same rows, so the theorems of Cascade carry over; inputs by extensionality; geometry of the inputs from Angles and Sphere |
| Quantile | `model/source/cascade/charge_quantiles.py` (convolutional and fully connected layers arbitrary functions of the inputs of the batch; exact reals; logarithms of positive numbers only; vertex not at a DOM) | C149-C153 | inversion of a successful evaluation; charges compared with the default cascade; mixture, mass and shifts with the lemmas of Cascade |
| Handler | `data/handler/modular.py` l.106-230, 287-425, 516-609, `data/handler/base.py` l.59-154, 204-492, 1132-1148, `data/modules/{labels,misc,weights,filters}/dummy.py` (modules and filter arbitrary functions; arrays as in Batch with an arbitrary `.shape`; references of index tensors looked up before filtering; the configuration object is that of Component) | C154-C159 | inversion and exact outcomes of the combining loop, the filter theorem C16 applied to its result, sorted lists for the order of entries |
| Multi | `model/source/base.py` l.10-26, 67-97, 183-261, `model/base.py` l.202-228, `model/multi_source/base.py` l.141-245, 296-311, 544-714, `multi_source/independent.py` l.25-96 (dictionary objects of the caller as a store; derived classes give the mapping; the check for new variables is left out; `configure` is that of Component; a tensor of the graph is a tree of operations) | C160-C164 | exact outcome of `configure` with the keyword arguments as passed; invariants of the folds that build dictionaries; induction on graphs |
| Scripts | train_model.py, export_manager.py, create_trafo_model.py, reconstruct_test_data.py and the file accesses of `BaseModelManager.train`. Files are a finite list of paths with contents, a directory exists if a file lies below it; scripts are sequences of actions that change files, leave a trace of what a user notices, and return or raise. The parsing of configurations, the building of modules and managers and the training loop are unknown functions; what is loaded depends only on the files below the directory | C165-C170 | symbolic execution of the scripts; frame lemmas for sequences of actions; runs of a small instance refute four expectations |
| Weights | `model/base.py` l.112-136, 288-296, 494-619, `model/multi_source/base.py` l.425-599, `manager/base.py` l.260-430, 773-786, `manager/component.py` l.780-999 as far as weights are concerned (the directory of each source is that of Checkpoint; the variables of a source are one value; configuration files left out; a component that is no Model contains none) | C171-C176 | a tree of models is flattened to the list of its sources, saving and loading to sequences over this list; the history theorems of Checkpoint for each directory; induction on modules for the variables |
| Scan | `manager/reconstruction/modules/visualization.py` and the template of `manager/source.py` l.1352-1353 (a figure is the points, levels and lines drawn; the loss function is the one made from the settings, as in Reco; exact reals; matplotlib and what is printed left out) | C177-C181 | symbolic evaluation of a scan of one event with the cell lemmas of Reco; monotonicity of the transformation for the range; injectivity of templates by lengths of their pieces; induction on events for files |
| Detector | `utils/detector.py` and `utils/dom_noise_rates.py` (all numbers, as exact decimals in the generated module `M_DetectorData.v`; rounding to single precision left out) | C182-C186 | lemmas on reshaped arrays and dictionaries; each table is checked once, entry by entry, by a function that the kernel evaluates, and the theorem follows from the meaning of this function |
| PulseConfig | `data/modules/data/pulse_data.py` l.41-196 and the use of settings in l.219-255 and l.443-476 (objects of frames and files by kind and key; masks of pulses left out; reading is that of Pulse) | C187-C189 | normal form of a configured module after any updates (stored settings and settings in effect); equality of lists of tensors computed attribute by attribute |
| Dataset | `data/handler/base.py` l.1022-1130 over the batching of Batch (rows carry their shapes; TensorFlow's conversion of types and prefetching left out) | C190-C191 | invariant of rows through leftovers, splits and files (each array: rows of its tensor, or placeholders); declared shapes decided axis by axis |
| Circular | `manager/reconstruction/modules/opening_angle.py` l.327-356 (the minimised function; scipy's minimiser and `chi2.cdf` are not modelled: the latter is any function) | C192 | every term falls before and grows after its own width, so the sum does outside of all widths; extreme value theorem in between |
| Ensemble | `manager/source.py` l.130-156, l.295-478 and the shapes in `manager/reconstruction/modules/covariance.py` l.93-175 (numbers are represented by their first and second derivatives; automatic differentiation is taken to be linear; TensorFlow's InvalidArgumentError is ValueError) | C193-C194 | scaling of derivatives through the loops over models and terms; uniqueness of inverses by double sums |
| Retry | `manager/component.py` l.861-999, as modelled in `M_Component.v` (no model file of its own) | C195-C197 | two objects which differ only in left-over sub-components are carried through the loop of `load`; names left behind are those of the configuration files read |
