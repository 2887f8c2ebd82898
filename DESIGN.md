# Formal model of appletree: design

This directory holds a machine-checked model (Rocq/Coq 8.16.1, standard library only) of the
logic of `appletree` as found in /repo, and theorems about it. The properties are listed in
`properties.jsonl`; `MANIFEST.json` maps each to the theorems that settle it.

## Layout

* `rocq/theories/Base.v`, `BaseFacts.v`: results (`Ok v | Err exc`), insertion-ordered
  dictionaries, list lemmas.
* `rocq/theories/Model*.v`: the model. No proofs. Each definition cites file and lines of /repo
  and says where it simplifies.
* `rocq/theories/Spec*.v`: the vocabulary the theorems are stated in. It does not use the
  helpers of the model, only its data types.
* `rocq/theories/Proof*.v`: lemmas.
* `rocq/theories/Prop*.v`: the property theorems (`Cxx_…`), each followed by `Print Assumptions`,
  and examples showing that the hypotheses are met by concrete, non-trivial cases.
* `seeded/LOG.jsonl`: deliberate bugs put into scratch copies of the model, and what caught them.

## Modelling conventions

* Python exceptions are values of type `exc` inside `result`. Where the code has changed
  something before it raises, the model returns the changed state together with the error.
* Python dictionaries are insertion-ordered association lists with unique keys; sets are lists
  used up to membership.
* Mutable state (the global `_cached_configs`, `_cached_functions`, class attributes written by
  `Plugin.__init__`, the shared alias dictionary) is a record passed through the functions.
  Histories are lists of operations, so "at any time" is a quantifier over lists.
* Counts and indices are `nat` or `Z`. Numerical formulas are over the mathematical reals `R`,
  and where NaN and infinities matter over `fl = Fin r | PInf | NInf | NaN` with the IEEE rules
  for these values. Rounding (except in C116, ModelRound.v), overflow of finite numbers and the sign of zero are NOT modelled.
  So no theorem says anything about errors of 32-bit arithmetic.
* Random keys are nodes of the tree made by `jax.random.split`. What a key draws is an arbitrary
  function of the key (a record of oracles).
* External code (jax and numpy kernels, random bits, the file system, emcee, h5py, GOFevaluation,
  scipy's root finder) is a section variable or a record argument, so it is universally
  quantified in the theorems. Whatever is assumed about it is a visible hypothesis.
* Arrays are lists, or functions of the event number together with the size.
* A property whose natural reading is false of the code is stated in `properties.jsonl` with its
  exceptions, and each exception has a witness theorem `Cxx_…_refuted`. These are collected under
  "Findings" below.

## Trusted base

* Coq's kernel.
* The axioms reported by `Print Assumptions`; the table "Assumptions of each theorem" lists them.
  They all come from the standard library (reals and classical logic). The development adds none.
* The reading of the Python source. Nothing is extracted or executed: /repo has not been run, and
  the agreement of each definition with the lines it cites was checked by reading only.
* The reading of numpy, jax, scipy and emcee where the code calls them (for example that
  `jnp.searchsorted` counts smaller entries (proved of its bisection in C121), that out-of-range jax reads clamp and jax scatter
  updates drop, that `np.clip` propagates NaN). The comments in the model say what was assumed.

## What is modelled and what is not

| source | modelled | not modelled |
|--------|----------|--------------|
| `component.py` | registration, dependency deduction, generated code, its text as Python reads it, and its execution, deduce/compile/simulate, `simulate_hist`, `simulate_weighted_data`, `multiple_simulations`, `multiple_simulations_compile`, normalisation, binning dispatch, `set_config`, `show_config`, `new_component`, lineage and what it says about a simulation, the file that `save_code` writes, `ComponentFixed` | printing, jit |
| `config.py` | `Config`, `Constant`, `ConstantSet`, `Map`, `SigmaMap`, `takes_config`, pdf to cdf, log axes | reading of JSON/npy files (contents are given) |
| `context.py` | construction of a whole context from an instruction (Likelihood and LikelihoodLit), the shipped instructions and parameter files as data, `log_posterior`, copied parameters, sanity check, lineage of likelihoods and contexts, posterior parameters, metadata and restoring (the text of the instruction character by character, which file is opened), fitting and continuing with the emcee sampler and its backends (moves as arbitrary functions) | acceptance fraction and autocorrelation written to the file, h5py storage, how the hash is made of a lineage |
| `likelihood.py` | both likelihood classes: construction, binning from the config, data selection, registration, aliases, model histogram, log likelihood, accepted events, weighted data | bins, file names and layout of the printed summaries, other warnings |
| `parameter.py` | all of the class except the summary texts | |
| `hist.py`, `interpolation.py`, `randgen.py` | all functions | jit/vmap decoration; that the numbers of jax.random are distributed as documented |
| `plugins/*.py`, `components/*.py` | the `simulate` of every shipped plugin; declarations of every plugin class and the registrations of every component | plugins of other packages |
| `share.py`, `plugin.py` | all | |
| `instructs/*.json`, `parameters/*.json` | as data (ModelInstruct.v, ModelParFiles.v; with ModelShipped.v written by a script from the sources, numbers in configs in units of 0.001) | `url_base`, `doc`, `unit` entries |
| `maps/*.json` | as data (ModelMaps.v, written by a script; exact decimals) | rounding of the decimals |
| `utils.py` | file lookup, GPU memory, extensions, dependency graphs, unused configs, `load_data` (path lookup and choice of the reader), `load_json` (path lookup), `calculate_sha256` (blocks), the file that `dump_lineage` writes, `get_equiprob_bins_1d/2d` (the binning of GOFevaluation is arbitrary), `errors_to_two_half_norm_sigmas` (real numbers, any sound root finder) , `plot_irreg_histogram_2d` (rectangles, colour scale, limits), the blocks of `calculate_sha256` | other plotting, MongoDB access, what pandas and json make of a file, `timeit` |
| `profiler.py` | which plugin runs with which inputs and key, the times from an abstract clock, the keys of the results, the rows and numbers of the three reports | widths and decimals of the printed text, blocking on devices |
| `plot.py` | all: `Plotter` (what is kept, all numbers drawn), `plot_maps` and the functions it calls (which maps, collapsing, positions and values drawn, files written) | matplotlib, `corner`, the filled band of point sigma maps |

## Design per property

"Modelled" names the files and definitions; "How" the argument.

| id | property | modelled | how it is proved |
|----|----------|----------|------------------|
| C01 | Generated simulation never reads an undefined variable | ModelComponent: `dependencies_deduce`, `dependencies_simplify`, `gen_code` (the generated function as straight-line code), `exec` | histories of registrations; induction on the recursion limit; invariant on the order of the dependency list; the interpreter of the code then never meets an unbound name |
| C02 | Workflow contains exactly the needed plugins, each once | ModelComponent: the same, `selected` | the list equals the set reachable in the dependency graph (`Reach`), without repetition, by induction on the recursion |
| C03 | Simulation returns the values of the dependency graph | ModelComponent: `run_prog`, `env` | simulation relation between the environment of the generated code and any solution of the graph equations (`Solves`); uniqueness of the solution |
| C04 | Deduction fails exactly when a provider is missing | ModelComponent: `dependencies_deduce` with an explicit recursion limit | both directions: failure gives a missing provider, completeness and acyclicity give success below the limit |
| C05 | needed_parameters is exactly the union of what is used | ModelComponent: `simplify_loop`, `config_params`; ModelConfig: `required_parameter` | induction over the workflow; membership only |
| C06 | Efficiency is the last simulated output | ModelComponent: `output_names`, `remove_first` | list induction |
| C07 | Registered plugins agree on config defaults | ModelComponent: `register1`, `conflict` | invariant over histories of registrations, including the ones that raise |
| C08 | Last registration wins and nothing else changes | ModelComponent: `register_provides` | induction over the provided names |
| C09 | Component registration in a likelihood is all-or-nothing | ModelLikelihood: `register_component`, `lit_register_component` | case analysis; invariant over histories |
| C10 | One simulated component per likelihood name | ModelShare: `sv_setitem`; ModelComponent: `set_code`, `clear_cache`, `wrun` | invariant over histories of deduce, compile, clear_cache and set_global_config |
| C11 | 1D irregular histogram counts right-closed bins | ModelHist: `searchsorted`, `at_add`, `trim`, `hist_1d` | induction over edges for the index, over events for the count |
| C12 | 1D histogram conserves weight | ModelHist: `hist_1d` | sum over bins of the entries of C11 |
| C13 | 2D irregular histogram counts the event in its own row's bin | ModelHist: `hist_2d`, out-of-range row lookup arbitrary | as C11, per row |
| C14 | Normalised component histogram sums to its rate | ModelLikelihood: `sim_hist`, `fixed_hist`, `get_normalization`, `simulate_model_hist` | sums over extended floats |
| C15 | Floored histogram keeps every bin strictly positive | ModelLikelihood: `floor_hist` | positivity of the floor over `fl` |
| C16 | Log-likelihood is never NaN or +inf | ModelLikelihood: `get_log_likelihood`, `log_likelihood_of` | case analysis over the four kinds of numbers |
| C17 | Poisson likelihood is maximised by the data | ModelLikelihood: `poisson_sum` | `ln x <= x - 1` termwise |
| C18 | Alias replacement is pure and renames exactly | ModelLikelihood: `replace_alias`, `replace_alias_heap` (with object identity) | induction over the alias table; witness for chains |
| C19 | Providing needed_parameters suffices after aliasing | ModelLikelihood: `alias_needed`, `register_component` | separation of names and targets; witnesses |
| C20 | Component order and key threading in the model histogram | ModelLikelihood: `sum_components`, `simulate_model_hist` | the chain of keys as an inductive relation (`sim_chain`) |
| C21 | Log prior is -inf exactly outside the allowed range | ModelParameter: `log_prior_loop`, `prior_term` | induction over the parameter list over `fl` |
| C22 | Sampled parameters stay in the allowed range | ModelParameter: `sample_loop`, `clip_range`, `init_parameter` | for every stream of random numbers |
| C23 | set_parameter is atomic on unknown names and last-wins | ModelParameter: `set_parameter`, `set_list` | induction; the state before an exception is returned |
| C24 | Fit vector round-trip | ModelParameter: `parameter_fit`, `parameter_fit_array` | sortedness and round trip over reachable states |
| C25 | log_posterior never simulates outside the prior support and keeps fixed parameters | ModelContext: `log_posterior`, `llh_loop`, with the list of calls made | likelihoods are arbitrary functions; trace of calls |
| C26 | Config resolution: explicit value beats default, default is sticky | ModelConfig: `resolve_cached_config`, `config_build`; ModelShare: `rdict` | invariant over histories of builds |
| C27 | Per-likelihood values are isolated | ModelConfig: all four kinds of config | non-interference: two caches equal for one likelihood stay equal |
| C28 | Unused configs are exactly those never looked up | ModelShare: `rdict` with its record of lookups, `unused_configs` | both directions over histories |
| C29 | set_global_config stores what it was given | ModelShare: `set_global_config`, `get_file_path` | case analysis on the value; environment of files arbitrary |
| C30 | A plugin class never takes two configs of one name | ModelConfig: `takes_config`, `collect_configs` | invariant over class hierarchies |
| C31 | SigmaMap interpolates median, lower and upper | ModelInterp: `sigma_apply` | real arithmetic, cases on the sign |
| C32 | SigmaMap requires exactly one parameter iff it is given as a list | ModelConfig: `required_parameter`, `sigma_build`, `sigma_scaler` | case analysis over values |
| C33 | Curve interpolation is clamped piecewise-linear interpolation | ModelInterp: `curve`, `interp` | index lemma for `searchsorted`, then real arithmetic |
| C34 | Bilinear and trilinear maps are exact at nodes, bounded, and clamp outside | ModelInterp: `bilinear`, `trilinear` | convex combinations; index and offset lemmas with `Int_part` |
| C35 | Inverse-distance maps are weighted averages of cell corners | ModelInterp: `idw_2d`, `idw_3d`, `knn`, out-of-range reads as jax clamps them | weighted averages over lists |
| C36 | Nearest-neighbour maps return the value of a closest node | ModelInterp: `nearest`, `nn_1d`, `nn_2d`, `nn_3d` | argmin by induction |
| C37 | Conversion from pdf to cdf gives a distribution function | ModelInterp: `pdf_to_cdf`, `mids`, `cumulative_integrate` | partial sums; witnesses for the half bin |
| C38 | Log axes do not change linear axes | ModelInterp: `preprocess`, `validate_bounds`, `build_regbin` | case per axis |
| C39 | Binomial samplers return an integer between 0 and n | ModelRandgen: `binomial_hybrid`, `binomial` | bounds over `fl` for any draws |
| C40 | Random keys are never reused within a simulation | ModelRandgen: all samplers, monad of keys | keys as paths; injectivity of the splitting tree |
| C41 | Two-half-normal density has its mode at mu and halves agree | ModelTwoHalf: `twohalf_logpdf`, `twohalf_rvs` | real analysis; bool/NumPy inversion modelled for the witness |
| C42 | Electronic-recoil quanta are conserved | ModelPlugins: `Quanta`, `IonizationER`, `RecombinationER` | integers, via C39 |
| C43 | NEST nuclear-recoil and electronic-recoil quanta bookkeeping | ModelPlugins: `TrueExcitonIonNR`, `TruePhotonElectronNR`, `TrueExcitonIonER`, `TruePhotonElectronER` | integers with clipping; witness for NaN |
| C44 | Efficiencies are probabilities | ModelPlugins: efficiencies | bounds over `fl` |
| C45 | File lookup precedence | ModelShare: `get_file_path`, `get_abspath` | first of an ordered list of candidates |
| C46 | Missing parameters are detected before fitting | ModelContext: `sanity_check` | membership; witness |
| C47 | copy_parameters keeps every copied parameter | ModelContext: `update_parameter_config`, `copy_loop`, `drop_loop` | induction over the copies; witnesses |
| C48 | Posterior parameters reflect the current chain | ModelContext: `get_post_parameters`, `fstep` | argmax; histories of fits; witness |
| C49 | A context can be restored from its backend | ModelJson: `dumps`, `eval_text`, `restore`; ModelText: `dumps`, `lex`, `parse`, `eval`, `py_eval` | induction over JSON values, character by character for strings |
| C50 | GPU memory fraction is set as requested | ModelUtils: `set_gpu_memory_usage` | decimal digits; witnesses |
| C51 | Extensions never silently overwrite | ModelUtils: `add_extensions`, `add_extension` | induction over classes; witnesses |
| C52 | Multiple simulations concatenate independent runs | ModelLikelihood: `multiple_simulations`, `hstack_runs` | induction over runs |
| C53 | Meshgrid histograms use left-closed bins | ModelHist: `hist_mesh_1d`, `hist_mesh_2d` | as C11 with left-closed bins |
| C54 | A context's needed parameters are those of its likelihoods | ModelContext: `ctx_register_likelihood`, `ctx_register_component` | membership over histories |
| C55 | One-dimensional regularly binned maps can be applied | ModelInterp: `regbin_1d`, `map_regbin_1d` | case analysis on the bounds |
| C56 | Point maps return the map values at their points | ModelInterp: `map_point` | via C33; witness |
| C57 | Interpolated maps are continuous | ModelInterp: `bilinear`, `trilinear`, `idw_2d` | moduli of continuity; witness |
| C58 | The jax two-half-normal sampler can return every value | ModelRandgen: `twohalfnorm` | needs that jax makes normal numbers from the uniform numbers of the key (`same_stream`) |
| C59 | Compound Poisson samplers return counts | ModelRandgen: `negative_binomial`, `generalized_poisson`, `gp_loop` | invariant of the loop |
| C60 | Continuous samplers keep to their bounds | ModelRandgen: `uniform`, `truncate_normal` | order on `fl` |
| C61 | The modified Thomas-Imel model of electronic recoils gives recombination probabilities | ModelPlugins: `mTI`, `RecombFluct`, `TrueRecombER` | `ln (1+x)` bounds |
| C62 | Detection never creates photons or electrons | ModelPlugins: detector and reconstruction plugins | via C39 |
| C63 | Generated events lie in the requested volume and energy range | ModelPlugins: energy and position spectra | real arithmetic, `sin^2 + cos^2 = 1` |
| C64 | The liquid xenon density has an effect on the charge yield of electronic recoils | ModelPlugins: `QyER`, `QyNR` | equality of two runs |
| C65 | Mean yields are non-negative and conserve quanta | ModelPlugins: mean yields | real arithmetic |
| C66 | Fluctuations of nuclear-recoil electrons have the requested mean and variance | ModelPlugins: `TruePhotonElectronNR`; ModelRandgen: `skewnormal` | moments over finite distributions (`normal_moments`) |
| C67 | The recombination width never exceeds its amplitude | ModelPlugins: `OmegaER` | real arithmetic; witness |
| C68 | Simulations of shipped plugins never reuse a random key | ModelPlugins: all plugins that draw | as C40, by cases over the plugins (`shipped`) |
| C69 | The sign of delta_f selects the Fano factor | ModelPlugins: `FanoFactorER` | sign cases |
| C70 | Dependency graphs show exactly the dependencies | ModelUtils: `add_deps_to_graph_tree`, `add_plugins_to_graph_tree` | reachability, as C02 |
| C71 | A compiled component runs its own plugins with the configured values | ModelCompile: `build_component`, `simulate` | composition of C03 with the instances made by `compile` |
| C72 | Changing a config of a compiled component | ModelCompile: `set_config`, `build_component` | histories; witnesses |
| C73 | Lineage reports the values in use | ModelCompile: `component_lineage` | state of the class attributes after compile; witness |
| C74 | show_config lists exactly the configs of the workflow | ModelCompile: `show_config` | list equality with the workflow; witness |
| C75 | A map with uncertainty uses the files it is given | ModelConfig: `sigma_build`, `update_sigma_cache` | case analysis over the values; witnesses |
| C76 | Weighted data of a component agree with its histogram | ModelLikelihood: `sim_weighted`, `fixed_weighted` | relation of histogram and weighted events by sums over bins; witnesses |
| C77 | Weighted data of a likelihood join those of its components | ModelLikelihood: `weighted_components`, `simulate_weighted_data` | chain of keys as in C20 |
| C78 | The literature likelihood sums weighted log densities over the points | ModelLit: `new_lit`, `lit_log_likelihood`, `twohalf_array`, `norm_array` | sums over broadcast arrays over `fl`; maximisation by a quadratic |
| C79 | The band likelihood reads centre and widths off the table | ModelLit: `new_band`, `interp1d`, `band_array` | sorting; segments of a table; witnesses |
| C80 | The data histogram counts the events inside the clip in the bins of the components | ModelBinning: `new_likelihood`, `mask_data`, `set_bins`, `make_data_hist`; GOFevaluation arbitrary | decomposition of the constructor; counts by C11/C13/C53; monotonicity of `np.clip` on edges; witnesses |
| C81 | A likelihood uses the bins it is asked for or refuses | ModelBinning: `normalise_bins`, `resolve_explicit_bins`, `to_arrays`, `validate_irreg` | inversion of the constructor into a relation by bins_type, both directions; witnesses |
| C82 | log_posterior is the Poisson sum that the instruction describes | ModelWhole: `new_context`, `context_posterior`, composed of ModelBinning, ModelCompile, ModelLikelihood, ModelContext | inversion of the constructor into a relation over the instruction; composition of C71, C13/C53, C20, C80; one whole context computed as a case |
| C83 | After clear_cache a context is constructed as in a new process | ModelWhole: `new_context`, `construct_component`; ModelShare: `clear_cache` | simulation between process states that agree on configs and names in use; invariants of the cache of names; witnesses |
| C84 | Corrected signals are g1 times the photons and g2 times the electrons on average | ModelPlugins: `PhotonDetection`, `S1PE`, `ElectronDrifted`, `S2PE`, `S1`, `S2`, `cS1`, `cS2`, `PositionRecon` | the chain as a function of the draws at distinct keys; linearity of finite averages, one draw at a time |
| C85 | A well-formed workflow in a fresh likelihood always builds | ModelCompile: `build_component`; ModelComponent: `deduce`; ModelConfig: builds | no failing step: termination by acyclicity, each config usable stays usable while others are built; witness |
| C86 | Every shipped component simulates any of its observables | ModelShipped: every shipped plugin class and component constructor as data (generated by script) | boolean checks of the data by computation, then C85 and C71 |
| C87 | needed_parameters of a context is exactly what its instruction asks for | ModelWhole: `new_context`; ModelComponent: `simplify` | invariants over the registration of components; parameters settled under later configuration writes |
| C88 | A literature likelihood in a context compares its points with one simulated event | ModelWhole: `new_context` with both likelihood types; ModelLit: `new_lit`, `lit_log_likelihood` | as C82 and C87 with a case distinction on the type; witnesses |
| C89 | An instruction whose files, parameters and configs are there gives a context | ModelWhole: `new_context`, `context_configs`; ModelShare: `set_global_config` | no failing step: configs, copies, likelihoods and components one after the other; the conditions are kept by the writes of earlier builds (C85) |
| C90 | The shipped instructions give contexts that need exactly the parameters they name | ModelInstruct: the shipped instructions and component classes as data (generated by script) | boolean checks of the data by computation, then C89 for the construction and C87 for the parameters |
| C91 | The shipped parameter files are usable as they are | ModelParFiles: the shipped parameter files as data (generated by script); ModelParameter | five forms of entries, real inequalities by `lra`; C22 and C21 for the start; C90 for the context |
| C92 | The profiler runs the workflow of the component and reports it | ModelProfiler: `profile_plugin`, `profile_component`, `profile_context`, `profile_full` | invariant of the loop over the worksheet: what is stored contains what the rest of the selected plugins depend on; the build steps are those of C85; times by induction over the runs |
| C93 | plot_maps shows the map files in use, each once | ModelPlotMap: `collect1`, `collect_class`, `collect_works`, `collect_maps` | invariant of the collection (no file twice, names complete) under adding one config; C71 and C73 lemmas identify the class-level configs with those of the instances after a build |
| C94 | The plot of a map shows what the map returns, and collapsing averages the asked nodes | ModelPlotMap: `edges_centers`, `collapse_map`, `plot_bars`, `plot_image`, `plot_regular` | nodes on the scale of the axis by real algebra; the sorted list of axes equals the list of asked axes from the last to the first (uniqueness of sorted lists), removal from the back by induction over the axes; node values by C38 |
| C95 | plot_maps returns every figure and saves every map under its name | ModelPlotMap: `plot_collected`, `save_figure`, `plot_sigma`, `lookup_collapse`, `stem_of`, `basename` | induction over the collected maps; injectivity of file names by the last dot; witnesses |
| C96 | Plotter shows the chain, the priors and the best sample of a run | ModelPlotter: `new_plotter`, `plot_burn_in`, `prior_pdf`, `prior_curve`, `plot_marginal`, `make_all_plots` | masks and slices as filters of the list of iterations (induction); argmax as in C48; densities as multiples of exp of the log prior by real algebra; witnesses |
| C97 | plot_acceptance_fraction shows the fractions of steps in which walkers moved | ModelPlotter: `accepted`, `cum_fraction`, `window_mean`, `plot_acceptance` | induction over the chain: rows count moves; bounds by counting; witnesses |
| C98 | plot_autocorr estimates the integrated autocorrelation time | ModelPlotter: `fft`, `ifft_re`, `autocorr_func`, `auto_window`, `autocorr_new`, `plot_autocorr` | orthogonality of the roots of unity (telescoping sine sums), double sums rearranged; the sum of all autocorrelations of a centered series is zero, hence the window closes; the exponential is increasing |
| C99 | errors_to_two_half_norm_sigmas has one answer, and it has the promised percentiles | ModelSigmas: `to_solve`, `errors_to_sigmas` | signs of the roots from the monotonicity of the error function; uniqueness by comparing ratios; existence by the intermediate value theorem; distribution functions by equal derivatives; the limit of the error function by the Gaussian integral (ProofGauss: derivative under the integral sign) |
| C100 | Every sample that a fit records is one the user allowed | ModelFit: `fitting`, `pre_fitting`, `run_mcmc`, `begin_run`, `run_steps`, `one_step`, `accept`, `compute_log_prob`, `dump_meta` | invariant of all walkers (allowed, evaluated, not NaN) by induction over parts and steps; a proposal outside has log posterior -inf and cannot be accepted from above; a start inside by C23; argmax as in C48 |
| C101 | Continuing a fit is one longer fit, except for what the file says about the best sample | ModelFit: `continue_fitting`, `attach`, `pre_fitting`, `save` | steps of n+m split; an evaluation forgets the previous fitted values, hence equal runs from the same file; witnesses by computation |
| C102 | Components with the same lineage simulate the same, up to what the lineage leaves out | ModelLineage: `lineage`, `plugin_lineage_of`, `config_lineage_of`, `held_of`, `simulate_hist`, `dump_lineage` | the parts of a built component (build_parts): equal code, equal instances, equal config values or file hashes give equal attribute tables, hence equal runs of the generated code; witnesses by computation |
| C103 | The parameters read from a fit are allowed, and a template is simulated with the best of them | ModelContext: `np_median`, `chosen`, `get_post_parameters`; ModelPost: `template`, `get_template`; ModelFit, ModelWhole | order statistics of sorted lists; the chain read after the first fit; pairing of histogram and simulate in every built context; witnesses |
| C104 | Compiling again changes nothing, and multiple_simulations_compile is compile and multiple_simulations | ModelRecompile: `refresh`, `turns`, `multiple_simulations_compile`; ModelConfig, ModelComponent `compile` | what one likelihood sees in the configuration never changes during a compilation (exact growth, using that a map needs a string), so a second compilation reads back the values of the first; induction over the turns |
| C105 | The picture of a histogram with irregular bins shows its bins and contents | `plot_irreg_histogram_2d` (ModelIrregPlot.v): the two loops with their array accesses, `np.min`/`np.max`, matplotlib `Normalize`, the arguments of every `Rectangle` and the axis limits | the loops are replaced by a description of the cell at each index (`cells_shaped`), all outcomes are then listed (`plot_done`); combined with C13 for histograms of events |
| C106 | Contexts with the same lineage have the same log_posterior | ModelCtxLineage: `fixed_lineage_of`, `lik_lineage_of`, `ctx_lineage_of`, `dump_context`, `lik_fun`, `ctx_posterior`; ModelLineage, ModelCompile, ModelContext | `in_force` ties the shared plugin classes to the values a component was compiled with (`in_force_parts`), then C102 per component, extensionality of `log_posterior` in its likelihoods, and states of two Parameters agree after set_parameter covers all free ones; witnesses |
| C107 | A copy of a component simulates the same events | ModelCopy.v, ModelCompile.v, ModelLineage.v | every value that a build leaves in a plugin is what the likelihood sees in the configuration afterwards, and what a likelihood sees never changes; the generated programs differ in instance names only |
| C108 | On-simulation normalisation divides by the events that this component counted | ModelOnSim.v, ModelCompile.v, ModelLikelihood.v | invariant over all histories that the namespace of a component holds its own function and no other; sums of efficiencies over disjoint bins (C76) |
| C109 | The text of the generated code means the deduced workflow | ModelCode.v: `source`, `lines`, `lex`, `parse_module`, `py_exec`, `py_call`; ModelComponent.v, ModelCompile.v | the reader is run symbolically over each generated line (piecewise lemma `lex_run`), then line by line induction over the worksheet; execution is matched with `instantiate` and `run_closure` by an invariant on the namespace |
| C110 | Generated energies and positions follow the distribution asked for | ModelPlugins.v, ModelInterp.v, ModelSpectra.v: `cdf_spectrum`, `pdf_spectrum` | inversion of the piecewise linear table (strictly increasing both ways); polar coordinates with the square root inverted by squares |
| C111 | Mean yields of the NEST plugins are the published formulas | ModelPlugins.v (nestv2 and er_nestv2 plugins), SpecYields.v formulas over R | evaluation of the idealised floats to real formulas; monotonicity of powers |
| C112 | Quanta fluctuate with the stated mean and variance | ModelPlugins.v, ModelRandgen.v | moments over finite distributions of the oracle numbers, iterated averages for the binomial after the binomial |
| C113 | Samplers have the distributions that they are named after | ModelRandgen.v | Pascal recursion for the Bernoulli sum; Gaussian moments up to the sixth for the Cornish-Fisher cubic; conditional averages for the mixtures; induction over generations |
| C114 | Simulated histograms are unbiased when normalised on the simulation, and biased otherwise | ModelLikelihood.v, ModelHist.v | mean and variance of sums over independent draws; every bin is such a sum (C108); tangent of the logarithm for the likelihood |
| C115 | The shipped maps are there, have a value everywhere, and mean what the plugins take them for | ModelMaps.v (written by a script from `maps/*.json`; reading a file and choosing how to apply it), with ModelInterp.v, ModelPlugins.v, ModelShipped.v, ModelInstruct.v | order and bounds of the tables decided on integers by computation, then C33-C36 for all positions; the plugins by C44 and C62 |
| C116 | Floating point rounding: counts are exact up to 2^24, then stop, and sums stay within bounds | ModelRound.v (round to nearest even with p bits, sums as trees, the histogram with rounded additions, a term of the log likelihood) | relative error of one rounding, then induction on the tree of additions; whole numbers below 2^p are representable; 2^p + w rounds to 2^p for w at most 1 |
| C117 | A parameter changes only the likelihoods whose components read it, and otherwise only the prior | ModelWhole.v, ModelCompile.v, ModelLikelihood.v, ModelContext.v | two runs of the compiled program with arguments equal up to unread parameters, then the aliases, the components, the loop over likelihoods and the terms of the prior |
| C118 | In the rates a likelihood is concave, and it is best when it expects as many events as there are in the data | ModelLikelihood.v, ModelHist.v, ModelWhole.v | histograms are linear in the rates for both kinds of normalisation; concavity of the logarithm, then its tangent |
| C119 | Coarser bins add up finer ones, and never fit worse | ModelHist.v, ModelLikelihood.v | intervals between kept edges are disjoint unions of bins; sums over groups of bins commute with scaling and adding; log sum inequality |
| C120 | What the reports of the profiler say | ModelReport (with ModelProfiler, ModelComponent) | insertion sort is stable and descending; sums by associativity of the idealised addition; keys from C92; order of the worksheet from C01 and C02 |
| C121 | Binary search finds the bin | ModelBisect: `bisect` and the functions of ModelHist and ModelInterp with it | invariant of the halving, with the number of steps left as its measure; then the number of entries below by monotonicity |
| C122 | Which plugin of a module is used | ModelModules: `register_all`, `module_classes` (with ModelComponent: `register`) | lists of modules flatten to one list of classes; the last provider of the sorted list by induction |
| C123 | The order of the two axes of a likelihood | ModelHist, ModelBinning, ModelLikelihood (with ModelCompile for the refutation) | entries of the two-dimensional histogram as a function of the bin numbers; the sum and the tests of the likelihood do not depend on the order of the bins |
| C124 | The expected number of events and the summary of a context | ModelSummary: `context_events`, `context_summary` (with ModelWhole, ModelLikelihood) | the loops against the construction of the context (C82); the sums by C14 and the histograms of C82 |
| C125 | What a deduce that raises leaves behind | ModelComponent: `deduce`, `compile`; ModelOnSim: `simulate_hist_in` | the fields that each step of deduce writes before it can raise |
| C126 | Keys made from the clock | ModelKeys: `prng_key`, `time_seed`, `get_key` | integer division; floors of rounded products, the rounding any function within 1/8 |
| C127 | The file that dump_lineage writes | ModelDump: `dump_file`; ModelText: `dumps` | the tokens and the expression read back from a text (C49) determine the object; sorted lists with distinct keys are unique |
| C128 | A map file means what its entries say | ModelMaps: `apply_file`, `apply_grid`, `apply_points` | dispatch on the entries, then C33, C34, C36, C37, C38; row-major indices of nested lists |
| C129 | A constructed context answers | ModelWhole: `context_posterior`, `construct_component`, `sim_rows`; ModelCompile: `run_closure`; ModelLikelihood: `sim_hist`, `fixed_hist`, `get_normalization` | invariant on the variables of the generated function (key, parameters, columns of one length); lengths of histograms; C25, C87 |
| C130 | The name of a data file selects how it is read, and saved code does what compile does | ModelLoad: `reader_of`, `load_table`, `save_code` (with ModelShare, ModelUtils: `last_part`) | last part after the last dot by induction; joined paths end in the name; construction of the context (C82); C109 for the text |
| C131 | Reading parameters by name returns the values in the order asked for, or nothing | ModelParameter: `getitem`, `get_parameter`, `check_exist`, `set_parameter` | induction over the list of names; C23 |
| C132 | Every parameter is drawn with random numbers of its own | ModelParameter: `sample_loop`, `prior_value`, `init_value`, `draw_twohalf` | a generator that records its requests; induction over the parameters; requests and value are determined by the setting |
| C133 | A SigmaMap applied reads exactly the parameter it reported, and the files in their roles | ModelSigma: `sigma_map_apply`; ModelConfig: `sigma_scaler`, `sigma_build`, `map_build`; ModelMaps: `apply_file`, `sigma_at` | C32 (what is reported is read), C75 (files), the three values at a point |
| C134 | from_backend opens the file it is given, or refuses | ModelReopen: `from_backend`, `open_read_only`, `with_backend`; ModelShare: `get_file_path`; ModelFit: `pre_fitting` | case analysis on where the file is found; the chain of the attached backend |
| C135 | The order of the axes of a map does not matter, nor an axis along which nothing changes | ModelMaps: `apply_file`, `apply_grid`, `look2`, `look3`; ModelInterp: `map_regbin_2d`, `map_regbin_3d`, `bilinear`, `trilinear`, `idw_2d`, `idw_3d`, `nn_2d`, `nn_3d` | entries of nested lists as functions of the index; symmetry of the formulas by ring; bounds on the weights for the counterexample |
| C136 | What of a data file matters | ModelBinning: `new_likelihood`, `mask_data`, `positions`, `select`, `set_bins`, `make_data_hist`; ModelLikelihood: `fixed_hist` | vocabulary SpecBinning (`value_in`, `in_clip`, `counts`) and stdlib `Permutation`; the histogram is a count per bin (C80), counts do not change under permutations and add up over concatenations; distinct column names determine the values selected |
| C137 | What of the simulated events matters for the histogram | ModelLikelihood: `sim_hist`, `implement_binning`, `plain_hist`, `floor_hist`, `get_normalization` | the histogram is the weight per bin (C76); weights are sums, which do not change under permutations, add up over concatenations and ignore zeros |

## Findings: where code and natural expectation disagree

Each has a theorem about the model; the name is given.

* Two plugin classes of one name: the generated code runs one of them twice (C01_same_class_name_refuted).
* A plugin registered over one of two data names of another plugin changes what the other one sees (C03_partly_overridden_refuted).
* Requesting `eff` twice makes deduce drop only one of them (C06_twice_refuted).
* A refused `register` leaves the names handled before (C07_not_atomic_refuted).
* A likelihood normalised without the floor and with no event in the bins gives NaN bins (C14_empty_bins_refuted); with an empty sample so does the floor (C15_empty_sample_refuted).
* Alias chains: replacing is not idempotent, and needed parameters may not suffice (C18_chain_refuted, C19_chain_refuted, C19_alias_needed_refuted, C54_chain_refuted).
* A uniform prior is not enforced by `log_prior`, only `allowed_range`; a NaN parameter is accepted (C21_uniform_support_refuted, C21_nan_accepted_refuted).
* A config set after a plugin has read it is reported as used but has no effect (C28_set_too_late_refuted).
* `SigmaMap` reads the configuration again at call time (C32_changed_between_refuted).
* Maps of type pdf give quantiles half a bin low (C37_half_bin_low, C37_quantile_refuted).
* `twohalfnorm` draws twice from one key (C40_twohalfnorm_refuted), so an interval of values is never returned (C58_gap).
* `TwoHalfNorm.rvs` with Python numbers as widths and no size fails to sample the lower half (C41_python_scalars_refuted).
* Nuclear recoils with negative mean excitons: NaN counts (C43_nr_refuted).
* The sanity check of a context does not notice missing parameters (C46_missing_refuted).
* Copied parameters that are sources of other copies are lost (C47_chain_refuted, C47_order_refuted).
* Posterior parameters are read once and never again (C48_stale_refuted).
* A context cannot be restored when its metadata hold true, false, null, NaN or Infinity (C49).
* Memory fractions below 0.1 or equal to 1 are set wrongly (C50_small_refuted, C50_one_refuted).
* `add_extensions` checks the dotted module name but sets the last part of it (C51_dotted_refuted).
* Mesh-grid and irregular histograms close their bins on opposite sides (C53_binnings_agree_refuted).
* One-dimensional regularly binned maps cannot be applied (C55_never_applies_refuted).
* `log_point` maps take the logarithm of the map values along with that of the positions and nodes, and return it: at a node the result is log10 of the value in the file (C56_log_point, C56_log_point_refuted).
* Inverse-distance maps jump at cell boundaries (C57_idw_jumps_refuted).
* With g2 above the gas gain the extraction probability saturates (C62_g2_above_gain_refuted).
* The liquid xenon density has no effect on electronic recoils (C64_density_ignored).
* The recombination width can exceed its amplitude when skewed (C67_exceeds_refuted).
* `MonoEnergiesSpectra` reuses a key (C68_mono_refuted).
* `compile` imports plugins by name: a class of the same name in `appletree.plugins` is run instead (C71_imported_class_refuted), an unpublished one raises ImportError (C71_unpublished_refuted).
* `set_config` then `deduce` raises; other orders keep old values (C72_…_refuted).
* Lineage is stored on the class: a second likelihood changes the lineage of the first (C73_shared_class_refuted).
* `show_config` knows only `batch_size` as a name without provider (C74_other_nodep_refuted).
* `SigmaMap` without likelihood name: dictionaries are not resolved (C75_no_likelihood_refuted), defaults stick (C75_default_sticks_refuted).
* Weighted data and histograms disagree for events on an edge, in gaps of irregular rows, with the floor, and with `force_no_eff` (C76_…_refuted).
* A likelihood without components: `simulate_weighted_data` raises ValueError (C77_no_component_refuted).
* Literature likelihood: a non-positive scale of a normal density silently gives -inf (C78_scale_silent).
* Band likelihood: an event outside the table gives -inf although its efficiency is zero (C79_zero_efficiency_refuted); the shipped band starts above the lowest generated energies (C79_shipped_band_refuted).
* The clip is applied to the data even when edges are given, although the code warns that it is ignored: model and data then cover different regions (C80_clip_ignored_refuted).
* Data exactly at the upper limit of the clip are dropped while simulated events there are counted; relevant for integer observables (C80_upper_limit_refuted).
* `bins_type` irreg refuses a number of bins because it is turned into an array before it is looked at (C81_irreg_number_refuted).
* A context whose construction failed has used up its likelihood names: the corrected instruction raises RuntimeError until `clear_cache` (C83_failed_first_refuted).
* Configs set by an earlier context stay in effect for later ones that do not mention them (C83_configs_stay_refuted).
* A likelihood can have only one simulated component (C83_one_simulated).
* Reconstructed areas can be negative (C84_area_sign_refuted).
* A Constant named like a part of a SigmaMap makes a build fail with both configs usable (C85_shared_key_refuted).
* `nestv2.BandEnergiesClipEff` is shadowed by the class of the same name in `er_nestv2` (C86_case_efficiency); the two are identical today.
* `parameters/er_nestv2.json` has `hits_acceptance` (and `s1_eff_n_hits_3f_sigma`), which no plugin takes: the check before a fit refuses a context that uses the file (C91_er_nestv2_refuted, C91_er_nestv2_case).
* The profiler looks a class up by the first name that the worksheet row provides, and instantiates it anew: it can time another class than the one `simulate` runs, or fail with KeyError (C92_shared_name_refuted, C92_later_registration_refuted, C92_set_config_refuted).
* `profile_component(n_warmup=0, n_runs=0)` fails with UnboundLocalError (C92_no_runs); `n_runs=0` reports NaN (C92_times).
* `plot_maps` reads the config objects of the classes: with a different map file per likelihood it shows only the files of the likelihood built last (C93_last_built_refuted); a plugin found under its first provided name can be another one (C93_first_name_refuted).
* Bars of one-dimensional maps on logarithmic axes are centered on the nodes with the linear width of the bin: they are shifted below their bins, overlap, and can reach below zero (C94_log_bars_refuted, C94_log_bars_negative_refuted).
* `plot_maps(save=True)` writes the three images of a two-dimensional SigmaMap to the same file: only the upper one remains (C95_sigma_images_refuted); maps of the same file name overwrite each other (C95_same_name_refuted).
* Lower and upper maps of a SigmaMap are drawn on the axes of the median (C95_sigma_axes_refuted).
* `Plotter` drops every iteration in which one walker has no finite posterior, and draws the others as if none had been dropped: curves are shifted (C96_dropped_refuted). If every iteration has such a walker the plotter is built but no plot can be made (C96_all_dropped_refuted).
* The prior density of a uniform parameter is drawn with its height also outside its bounds (C96_uniform_outside_refuted).
* `Plotter.make_all_plots` with one fitted parameter: IndexError in plot_autocorr (`axes[-2]`) after three of five figures (C96_one_parameter_refuted).
* The number that `plot_acceptance_fraction` gives for each walker is the mean of its cumulative fractions, not its acceptance fraction (C97_walker_refuted); with thin > 1 the shown fractions are those of the thinned chain (C97_thin_refuted).
* One walker that never moved in a parameter makes the autocorrelation of that parameter NaN (C98_constant_walker_refuted); a chain with fewer than 100 kept iterations gives ten times the same estimate at numbers of iterations that were not made (C98_short_chain_refuted).
* `Context.fitting` resets the backend file before emcee checks the number of walkers: a fit that fails there has erased the earlier run (C100_few_walkers).
* After `continue_fitting` in the same context the file's post_parameters are those of the first fit (C101_stale_refuted): the cached chain of C48.
* `continue_fitting(context)` does not compare parameter names or ranges: samples outside of the allowed ranges are recorded (C101_other_range_refuted), and values of one parameter become values of another (C101_other_names_refuted). Without a file, `continue_fitting()` on the own run fails and discards the chain (C101_memory).
* The lineage of a component does not contain the source of its plugins (C102_source_refuted), the scaler of a SigmaMap (C102_scaler_refuted), force_no_eff and add_eps_to_hist (C102_flags_refuted); files are hashed when the lineage is asked for, not when they were loaded (C102_rewritten_file_refuted). `dump_lineage` raises TypeError for any component with a ConstantSet (C102_dump_constant_set_refuted), as in plugins/nestv2.py.
* A fit that raised an exception leaves a file that `from_backend` cannot open (C101_interrupted).
* The shipped instruct literature_lyqy.json contains `false`: the file of a fit with it cannot be opened with `from_backend` (C49_text_shipped_refuted). Restoring sorts the likelihoods by name, which changes the value of a copied parameter that is copied again (C49_parameters_order_refuted).
* `get_template` gives the parameters to the component without the parameter_alias of its likelihood: KeyError for a component that uses an aliased name, or a template with other values than in the likelihood if both names exist (C103_template_alias_refuted). The shipped literature_lyqy.json uses aliases.
* `get_post_parameters('median')` may return a point of zero posterior (C103_median_zero_refuted).
* `multiple_simulations_compile` raises KeyError unless a config g4 is set, which no shipped plugin has (C104_needs_g4_refuted); with times = 0 it raises UnboundLocalError (C104_zero_refuted); it takes the first letter of a g4 given as a string (C104_name_refuted) and overwrites the user's g4 (C104_g4_left_refuted).
* `plot_irreg_histogram_2d(..., density=True)`: one empty bin with zero area (repeated edges, which `get_equiprob_bins` produces for repeated values) gives 0/0 = NaN, `np.min`/`np.max` propagate it to both ends of the colour scale, and every rectangle is drawn with the colour for NaN (`C105_zero_area_refuted`). A histogram smaller than its binning is drawn without an error (`C105_ignores_refuted`).
* `Context.lineage`: plugin classes are shared by all likelihoods, so with configs given per likelihood the lineage of each likelihood shows the values of the one that was compiled last; a changed map file of another likelihood changes log_posterior but neither the lineage nor its hash (`C106_shared_class_refuted`). The lineage contains the config with the data file name as given, so the same file in another directory gives another hash although `file_path` is reduced to the base name (`C106_path_refuted`). The order of likelihoods is not in the lineage but matters, because the random key is handed on (`C106_order_refuted`). `dump_lineage` raises TypeError for contexts with a ConstantSet in a Poisson likelihood (`C106_dump_refuted`).
* C107: a copy made by `new_component` has no `rate_name`, so `simulate_hist` raises KeyError until it is set; plugins registered on the original are silently lost; the default likelihood name is the same for all copies of a class, so only one can be built; a `ComponentFixed` cannot be copied, since `file_name` is not passed on.
* C108: with `norm_type = "on_sim"` the default floor (`add_eps_to_hist`) puts the mean efficiency in every bin, so with many bins and few events the total exceeds the rate (`C108_floor_total_refuted`). The number of selected events is looked up by name in `_cached_functions` when a histogram is made, not when the component is compiled: after `clear_cache` it is a KeyError, and a later component of the same name and likelihood silently supplies its own number (`C108_taken_over_refuted`).
* C109: `flush_source_code` writes names into Python text without any check or quoting. A component name with a hyphen, or a data name that is a reserved word, passes `deduce` and is a SyntaxError in `compile`; a likelihood name with a backslash is read by Python as another name (`C109_llh_other_refuted`), so that configs given per likelihood are not found. After a `compile` that raises at the second plugin, the first plugin of the old function has been replaced (`C109_failed_recompile_refuted`); the structured model of compile (C71, C72) keeps the old plugins there, which is what jit's cache does for batch sizes already traced.
* C110: a spectrum given as a pdf is not sampled as that pdf: `pdf_to_cdf` assigns the probability up to the END of an interval to its MIDDLE. A flat pdf on the points 0, 1, 2 keV gives half of the events exactly 0.5 keV and nothing above 1.5 keV (`C110_pdf_atom_refuted`, `C110_case_pdf`).
* C112: numbers of quanta are cut at zero after the normal draw, so at energies of a few w the mean number of quanta is larger than E/w (`C112_cut_refuted`).
* C113: `binomial_hybrid` above its threshold with few expected successes: 10000 trials of probability 10^-8 give two or more successes in about 4% of the draws (true probability below 10^-8), because the cubic Cornish-Fisher term has a negative coefficient of order 1/(n p (1-p)) (`C113_hybrid_rare_refuted`).
* C114: the default histogram (floor on, `on_pdf`) is biased at finite batch size: the floor fills impossible bins with about rate * mean efficiency / batch, and the ratio of `on_pdf` has a different average than the ratio of the averages (`C114_floor_impossible_refuted`, `C114_on_pdf_refuted`). Without floor a log likelihood of minus infinity has positive chance at every batch size (`C114_minus_infinity_refuted`).
* With the shipped maps the parameters `s1_eff_3f_sigma`, `s1_cut_acc_sigma` and `s2_cut_acc_sigma` have no influence on any event, because median, lower and upper map are the same file (C115_efficiency); a fit that varies them returns their priors.
* In float32 a bin stops counting at 2^24 = 16777216 events (C116_stuck): further events of weight at most 1 are lost silently (C116_ceiling). Simulations with more events in a bin underestimate its content; and the content can depend on the order of the events (C116_order_refuted). At a batch size of 10^6 counts are exact, and weighted bins are good to at worst 12 % by the bound for arbitrary weights (C116_case_error).
* Changing a parameter that nothing reads: the posterior follows its prior alone (C117). The context accepts such a parameter in log_posterior and refuses it only before a fit (C87_checked), so a scan with log_posterior over a misspelt name gives a smooth curve that says nothing about the data.
* The floor of `implement_binning` is 1e-10 plus the mean efficiency, which is about one event, not 1e-10 (component.py:155-157; C15). It makes the expectation in a full bin depend on how many empty bins there are: with one event and three bins the first bin expects a third of the rate, and half of it if the two empty bins are joined (C119_floor_refuted).
* compare_plugin_vs_full with n_runs = 0 prints an overhead of +0.0% beside times that are nan, because nan > 0 is false (C120_no_runs_refuted).
* Edges that are not in order are accepted by set_binning; an event inside two of the resulting bins is counted in one of them only (C121_unsorted_refuted).
* register_all takes classes in alphabetical order, not in order of definition: a class meant to replace another one of the same module must have a name that comes later (C122_definition_order_refuted).
* The events that a simulated component gives for a key depend on the order of bins_on, because the order of the plugins and with it their keys do (C123_random_refuted). Results for the two orders agree in distribution only.
* Context.get_num_events_accepted uses the parameters as they are given, without the fixed ones: the dictionary that log_posterior takes gives KeyError (C124_fixed_parameters_refuted).
* print_context_summary prints the names of the parameters of a component before aliases are applied; with an alias they are not the names to be given (C124_pars_refuted).
* A deduce that is refused because the likelihood name is taken has already replaced worksheet, needed_parameters, func_name and code; compile() afterwards makes the old function without complaint, so code does not show what runs (C125_code_refuted). A refused deduce with force_no_eff makes simulate_hist fail from then on (C125_no_eff_refuted).
* Without x64 the key made from the clock has 32 bits: keys come again after 2^32 microseconds, 71.6 minutes (C126_period_refuted).
* `dump_lineage` opens the file before it asks for the lineage: a dump that raises (component not deduced, array of a ConstantSet) leaves an empty file where the old lineage was (C127_erased).
* `load_data` looks at the text after the last dot of the whole path: a file named csv is read from the working directory and refused under url_base (C130_bare_name_refuted). `save_code` of a component that was not deduced erases the file before it raises (C130_nothing_to_save_refuted).
* `parameter_alias` takes the source name away from the parameters of the likelihood: two components cannot be given one rate by an alias {"a_rate": "b_rate"}. Such a context is constructed, reports a_rate as needed, passes the sanity check, and every evaluation raises (C129_rate_taken, C129_shared_rate_refuted).
* `get_parameter` refuses a dictionary that `check_parameter_exist` and `set_parameter` accept (C131_dict_refuted).
* A SigmaMap without scaler returns its upper map (sigma = 1): with a single file and a separate `name_median` file, the latter is loaded and has no effect (C133_median_unused_refuted).
* `from_backend` reads the instruct from the path that `get_file_path` finds but opens the backend under the name as given: a file under url_base is read, the context is made (its likelihood names are taken), and RuntimeError is raised (C134_url_base_refuted). The names of fitted parameters in the file (`parameter_fit`) are never compared with those of the context (C134_names_refuted).
* IDW on a grid of three axes is not IDW on two: a map extended by an axis along which nothing changes has other values (C135_idw_refuted).
* With add_eps_to_hist the floor of a histogram is the mean efficiency of all simulated events, so removing events that cannot be seen (efficiency zero) changes the model (C137_floor_refuted).

## Assumptions of each theorem

As printed by `Print Assumptions` in the `Prop*.v` files. "none" means closed under the global context.
S = `ClassicalDedekindReals.sig_forall_dec`, N = `ClassicalDedekindReals.sig_not_dec`,
F = `FunctionalExtensionality.functional_extensionality_dep`, C = `Classical_Prop.classic`.

| property | theorems (assumptions) |
|---|---|
| C01 | no_undefined_variable, simulation_completes, same_class_name_refuted (none) |
| C02 | exactly_the_needed_plugins (none) |
| C03 | simulation_returns_graph_values, graph_values_unique, partly_overridden_refuted (none) |
| C04 | fails_iff_provider_missing, cyclic_never_returns (none) |
| C05 | needed_parameters_exact (none) |
| C06 | efficiency_last, returned_names, twice_refuted (none) |
| C07 | registered_defaults_agree, conflict_detected, not_atomic_refuted (none) |
| C08 | last_registration_wins, single_registration_frame (none) |
| C09 | failure_changes_nothing, fails_exactly, success, names_distinct, literature_one (none) |
| C10 | second_deduction_fails, failure_is_runtime_error, first_deduction_succeeds, after_clear (none) |
| C11 | length, entry (SF) |
| C12 | total, permutation, additive (SF) |
| C13 | entry, shape, rows (SF) |
| C14 | component_total, component_total_nonzero, fixed_total, model_total, model_total_floored, empty_bins_refuted (SF) |
| C15 | floor, empty_sample_refuted (SF); finite_likelihood (SNFC) |
| C16 | cases, never_nan (SNFC) |
| C17 | best, best_is_data, scale, likelihood_bounded (SNFC) |
| C18 | pure, renames, moves, untouched, twice, chain_refuted (none) |
| C19 | sufficient, exact (none); chain_refuted, alias_needed_refuted (S) |
| C20 | sum, order (SF); succeeds, sim_order_refuted (S) |
| C21 | minus_infinity, value, fixed_no_influence, order, uniform_support_refuted, nan_accepted_refuted (SNFC) |
| C22 | sample_prior, sample_init, no_parameter_added, construction, reclassified_refuted (SF); start_has_finite_prior, unknown_type_refuted (SNFC) |
| C23 | assigns, otherwise_nothing, read_back (none) |
| C24 | lists_free_parameters, increasing, configuration_order, round_trip (SF); order_is_total (none) |
| C25 | frame, unknown, outside, prior_not_finite, value, repeated, succeeds, never_nan (SNFC) |
| C26 | explicit_wins, explicit_wins_map, default_sticky, missing, build_keeps (none) |
| C27 | own_entry, missing_entry, isolation (none) |
| C28 | used_not_reported, unused_reported, reported_is_set, set_too_late_refuted (none) |
| C29 | numbers_and_lists, strings, tables, others_untouched, failure, unsupported (none) |
| C30 | success, failure, hierarchy (none) |
| C31 | values, static, straight, monotone, between, continuous (SF) |
| C32 | which, reported_is_read, changed_between_refuted (none) |
| C33 | linear, nodes, bounded, monotone, continuous (SNFC); covers (SF) |
| C34 | bilinear_nodes, trilinear_nodes, bilinear_reproduces, trilinear_reproduces, bilinear_bounded, trilinear_bounded, bilinear_clamps, trilinear_clamps, in_range, bilinear_monotone (SF) |
| C35 | 2d, 3d, bounded, bounded_3d, knn, knn_too_many (SNF); average (SF) |
| C36 | 1d, 2d, 3d, nodes (SF) |
| C37 | cdf (SF); half_bin_low, quantile_refuted, sample_range (SNFC) |
| C38 | coordinates, lerp_nodes, nn_nodes (SNFC); rejected, accepted (SF) |
| C39 | hybrid_range, hybrid_edges, hybrid_exact, range, normal_approximation (SNF) |
| C40 | samplers, programs (SNF); twohalfnorm_refuted (SF) |
| C41 | defined, unimodal, mode, continuous, symmetric (SNFC); samples, python_scalars_refuted (SF) |
| C42 | chain (SNFC) |
| C43 | nr, nr_refuted (SNFC); er (SNF) |
| C44 | probability, product, clip (SF) |
| C45 | precedence, join, idempotent, no_effect, url_base_must_exist, bad_url_base (none) |
| C46 | superfluous (none); missing_refuted (SNFC) |
| C47 | copies, fails, chain_refuted, order_refuted (none) |
| C48 | best, first_chain_for_ever, stale_refuted, continue_without_backend_refuted (SF) |
| C49 | restore, name_error, flag_refuted, character_refuted, order_refuted, text_restored, text_name_error, text_characters, text_string, text_shipped_refuted, parameters, parameters_order_refuted (none) |
| C50 | two_decimals, above_one, not_positive, small_refuted, one_refuted, unambiguous (SF) |
| C51 | kept, plain_name, added, when, imported_refuted, two_names_refuted, force, dotted_refuted, failure_refuted (none) |
| C52 | concatenates (SF); zero_rejected (none) |
| C53 | entry, entry_2d, length, binnings_agree_refuted (SF) |
| C54 | covers, exact, chain_refuted (none) |
| C55 | never_applies_refuted, scalar_bounds (SNFC) |
| C56 | log_point, log_point_refuted (SNFC) |
| C57 | bilinear_continuous, trilinear_continuous (SF); idw_jumps_refuted (SNF) |
| C58 | intended, gap, equal_widths, every_value_refuted (SF) |
| C59 | negative_binomial, stopped, generalized_poisson, eta_zero (SF) |
| C60 | uniform, truncate_normal, mass_at_the_bound (SF) |
| C61 | value, probability, width (SNFC); fraction (SF) |
| C62 | photons, photoelectrons, electrons, s2, g2_saturates, g2_above_gain_refuted (SNF); drift (SNFC) |
| C63 | cylinder (SNF); energy, lines (SF) |
| C64 | density_ignored, nr_density_matters (SNFC) |
| C65 | yields, validity, er (SF); exciton_ion, nr, nr_zero_energy (SNFC) |
| C66 | moments (SNFC) |
| C67 | no_skewness, exceeds_refuted (SNFC) |
| C68 | chains (SNFC); mono_refuted (SF) |
| C69 | sign (SNF) |
| C70 | data, drawn, plugins (none) |
| C71 | instances, graph_values, completes, set_value_is_used, one_value_per_name, failed_build, imported_class_refuted, unpublished_refuted (none) |
| C72 | deduce_again_refuted, compile_alone, needed_parameters_stale_refuted, new_map_file_refuted, clear_set_build, set_then_clear_refuted, compile_after_clear (none) |
| C73 | lineage_after_build, lineage_ignores_set_config, shared_class_refuted (none) |
| C74 | exact, key_error, shown_is_used, other_nodep_refuted (none) |
| C75 | files, undocumented, conflict, no_likelihood_refuted, default_sticks_refuted (none) |
| C76 | histogram, rows, on_sim, total, no_gaps, total_floored, same_histogram, same_histogram_fixed, no_efficiency_refuted, edge_refuted, gap_refuted, floor_refuted (SF) |
| C77 | parts (none); total, same_histogram (SF); no_component_refuted (S) |
| C78 | twohalf, norm, nan_yield, width_refused, scale_silent, mismatch, one_event, never_nan, below_infinity, energies_ignored, best, best_norm, refused (SNFC) |
| C79 | value, outside, width_refused, zero_efficiency_refuted, shipped_band_refuted (SNFC); defined, row_order (SF) |
| C80 | data, counts, total, shape, fixed, equiprob_1d, equiprob_2d, meshgrid_1d, meshgrid_2d, clip_ignored_refuted, upper_limit_refuted (SF) |
| C81 | checked, bins, accepted, exceptions, exceptions_binning, irreg_number_refuted, clip_needed (SF) |
| C82 | posterior, repeated (SNFC) |
| C83 | state, after_clear, name_taken, one_simulated, failed_first_refuted (SF); configs_stay_refuted (SNFC) |
| C84 | s1, s2, position (SNF); area, area_sign_refuted (SF) |
| C85 | builds, proper, shared_key_refuted (none) |
| C86 | registration, simulates, unknown_name, default_configuration (none) |
| C87 | needed, found, checked, refused, no_file (SF) |
| C88 | args (none); twohalf, norm, band, without_component, batch (SNFC); several_refused (SF) |
| C89 | settable, configured (none); constructs (SF) |
| C90 | constructs (SF) |
| C91 | files, er_nestv2_refuted (SF); start, context (SNFC) |
| C92 | component, times, no_runs, keys, shared_name_refuted, later_registration_refuted, set_config_refuted, slash_refuted, statistics, too_few, context, not_deduced, full (SNF) |
| C93 | collected, after_build, last_built_refuted, first_name_refuted, not_compiled (none) |
| C94 | bins, no_node, bars_linear, log_bars_refuted, log_bars_negative_refuted, image, shows_map, collapse, collapse_order, collapse_between, figures (SNFC); points (none) |
| C95 | stem, targets, lookup, lookup_refuted (none); saved, one_file_each, same_name_refuted, sigma_images_refuted, sigma_axes_refuted, sigma_band, sigma_collapsed, not_saved (SNFC) |
| C96 | kept, row, mpe, no_sample, as_context, burn_in, dropped_refuted (SF); all_dropped_refuted, marginal, uniform_outside_refuted, all_plots, one_parameter_refuted (SNFC) |
| C97 | cumulative, whole, moving, long_window, made, walker, walker_refuted, thin_refuted, one_iteration (SF) |
| C98 | autocorrelation (SNF); padding (none); plot, increasing, capped, made, constant_walker_refuted, short_chain_refuted (SNFC) |
| C99 | one_root, percentiles, widths, normalised, zero_errors (SNFC) |
| C100 | made, metropolis (SF); samples, kept, fixed, best, superfluous, few_walkers (SNFC) |
| C101 | longer, progress, still_progress, pieces, from_backend, written, other, other_shape, memory, interrupted, stale_refuted, other_range_refuted, other_names_refuted (SNFC) |
| C102 | fingerprint, histogram, moved_files, dump_constant_set_refuted, dump, records, binned, source_refuted, scaler_refuted, rewritten_file_refuted, flags_refuted, blocks (none) |
| C103 | median, one_median, between, no_template, template_events, template_fixed (SF); after_fit, template, template_alias_refuted, median_zero_refuted (SNFC) |
| C104 | compile_twice, compile_after_build (none); same, bootstrap, g4_left_refuted, needs_g4_refuted, no_entry, zero_refuted, name_refuted (SF) |
| C105 | drawn, rectangles, corner, histogram, density_total, scale, colours, limits, scale_error, errors, zero_area_refuted, ignores_refuted (SF) |
| C106 | fingerprint, order_refuted, shared_class_refuted, path_refuted, alias (SNFC); in_force, dump, dump_refuted, records, complete (none) |
| C107 | refused, copy, same_events, same_histogram, shared_configs, llh_taken, second_default_refuted, fixed_refuted, per_llh_refuted, registered_refuted (none); rate_refuted (SF) |
| C108 | bins, total, floor, exists, not_compiled, no_energy_refuted, unused_refuted, cleared_refuted, taken_over_refuted, fixed_refuted, floor_total_refuted (SF); called (none) |
| C109 | reads, same_text, compile, component_name_refuted, llh_quote_refuted, llh_other_refuted, llh_config_refuted, keyword_refuted, hidden_class_refuted, hidden_instance_refuted, failed_recompile_refuted, nodep_refuted (none) |
| C110 | uniform_energy (SF); cdf_spectrum, pdf_spectrum, pdf_atom_refuted, cdf_ends (SNFC); positions (SNF) |
| C111 | nr_box, nr_quanta, nr_charge, nr_light, nr_chain, nr_field, nr_threshold, er_charge, nr_width, er_width (SNFC); er_ratio (SF); field (SNF) |
| C112 | quanta, er_split, recombination, nr_ions, er_ions, er_electrons, cut_refuted (SNF); from_map, er_mean (SF) |
| C113 | hybrid_small, hybrid_large, hybrid_rare_refuted, normal_approximation, default_small, modes, normal, skewnormal (SNF); bernoulli, gamma, negative_binomial, generalized_poisson (SF) |
| C114 | unbiased, total, empty, floor, floor_impossible_refuted, on_pdf_nan, on_pdf_same, on_pdf_refuted (SF); log_likelihood, single, minus_infinity_refuted (SNFC) |
| C115 | constant, threefold, spectrum, yields, spectrum_yields, smearing, usable, named, instructs, field, corrections, efficiency, lifetime, recoils (SNFC) |
| C116 | whole, counts, ceiling, stuck, error, sum, log_likelihood, order_refuted (SNFC) |
| C117 | likelihood, posterior, prior_only (SNFC) |
| C118 | concave, total, one (SNFC); context (SF) |
| C119 | hist, project, project_irreg, model, floor_refuted, last_edge_refuted (SF); deviance (SNFC) |
| C120 | totals, top, all_shown (SF); compare, no_runs_refuted (SNF); worksheet (none) |
| C121 | hist_1d, hist_2d, mesh_1d, mesh_2d, same, interp, curve, between, unsorted_refuted (SF) |
| C122 | provider, order, lists, base, failure, definition_order_refuted (none) |
| C123 | histogram, constructor, simulated, fixed (SF); likelihood (SNFC); random_refuted (none) |
| C124 | number, rates, summary, pars_refuted (SF); failure (S); fixed_parameters_refuted (SNFC) |
| C125 | simulate, not_deduced, shows, compile, other_name, code_refuted (none); hist, no_eff_refuted (SF) |
| C126 | seeds, two_calls, run, period_refuted, same_tick_refuted (SF) |
| C127 | same, different, surrogates_refuted, erased, unopened, not_empty (none) |
| C128 | points, pdf, grid2, grid3, idw2, idw3, refused, refused_grid, one_axis_refuted (SNFC) |
| C129 | answers, number, rates, rate_taken, shared_rate_refuted (SNFC) |
| C130 | reader, follows_name, saved, nothing_to_save_refuted, bare_name_refuted (none); context (SF) |
| C131 | reads, unknown, other, written (none); dict_refuted (S) |
| C132 | prior, init, independent (SF) |
| C133 | names (none); apply, only, median_unused_refuted, at (SNFC) |
| C134 | own, only, elsewhere, unfinished, other_number (none); url_base_refuted, names_refuted (SNFC) |
| C135 | exchanged, exchanged_outer, exchanged_inner, constant, idw_refuted (SNFC) |
| C136 | order, columns, outside, joined, fixed (SF) |
| C137 | order, rejected, joined, unit, floor_refuted (SF) |
