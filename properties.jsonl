{"id": "C01", "title": "Generated simulation never reads an undefined variable", "statement": "After ComponentSim.deduce succeeds, in the generated simulation function every plugin call only reads batch_size (the no-dependency name) or variables assigned by an earlier call, and every returned data name has been assigned, provided that no two registered classes have the same name; with two classes of one name it can read an undefined variable.", "quantifier": "every plugin registry (any plugin graph, including diamonds and multi-output plugins), every list of requested data names, every no-dependency name", "why_tests_cant": "The set of dependency graphs and request orders is infinite; ordering bugs appear only for particular diamond shapes and sharing patterns.", "anchors": ["appletree/component.py: ComponentSim.dependencies_deduce, dependencies_simplify, flush_source_code, deduce"]}
{"id": "C02", "title": "Workflow contains exactly the needed plugins, each once", "statement": "After a successful deduce, the list of executed plugins has no plugin twice and contains exactly the plugins reachable from the requested data names through the depends_on relation.", "quantifier": "every plugin registry and every list of requested data names on which deduction terminates", "why_tests_cant": "Requires a statement over all graphs; tests only fix the shipped ER/NR graphs.", "anchors": ["appletree/component.py: ComponentSim.dependencies_deduce, dependencies_simplify"]}
{"id": "C03", "title": "Simulation returns the values of the dependency graph", "statement": "The generated simulation returns, for each requested data name, the value its registered plugin computes from the values of the data names it depends on, whenever every used plugin is the registered provider of everything it provides. Without that condition (a multi-output plugin partly overridden by a later registration) a returned value can come from the overridden plugin.", "quantifier": "every registry, request, plugin semantics (arbitrary functions), parameters, random key and batch size", "why_tests_cant": "Semantic correctness of code generation ranges over all programs it can generate; tests only execute a handful.", "anchors": ["appletree/component.py: ComponentSim.register, flush_source_code, compile"]}
{"id": "C04", "title": "Deduction fails exactly when a provider is missing", "statement": "On an acyclic plugin graph, deduce raises ValueError iff some data name reachable from the request (other than the no-dependency name) has no registered provider; otherwise it succeeds. On a cyclic graph it never returns normally.", "quantifier": "every registry and request", "why_tests_cant": "Needs both directions over all graphs; absence of a false alarm cannot be tested exhaustively.", "anchors": ["appletree/component.py: ComponentSim.dependencies_deduce"]}
{"id": "C05", "title": "needed_parameters is exactly the union of what is used", "statement": "After a successful deduce, needed_parameters equals the component's rate parameter (if it has one) together with the parameters of exactly the plugins that will be executed and the scaler parameters of their configs; earlier deductions leave no residue.", "quantifier": "every registry, every history of previous deductions on the component, every request", "why_tests_cant": "A stale or missing parameter name shows only for some history of re-deductions and config changes.", "anchors": ["appletree/component.py: ComponentSim.dependencies_simplify", "appletree/config.py: SigmaMap.required_parameter"]}
{"id": "C06", "title": "Efficiency is the last simulated output", "statement": "For a request that names the efficiency at most once, in any position, the simulation returns the other requested names in the requested order followed by the efficiency (or without it when force_no_eff is set). A request naming the efficiency twice breaks this.", "quantifier": "every list of requested data names", "why_tests_cant": "Holds for all lists and positions; the weighting of every histogram depends on it.", "anchors": ["appletree/component.py: ComponentSim.deduce, simulate_hist"]}
{"id": "C07", "title": "Registered plugins agree on config defaults", "statement": "After any sequence of successful registrations into a component, any two registered plugins that take a config of the same name have the same default for it; registering one that disagrees raises ValueError. The failed registration is nevertheless left in the component (registration is not atomic).", "quantifier": "every sequence of register / register_all calls and every set of plugin classes", "why_tests_cant": "An invariant over all histories of registrations.", "anchors": ["appletree/component.py: ComponentSim.register, register_all"]}
{"id": "C08", "title": "Last registration wins and nothing else changes", "statement": "After registering a plugin, every data name it provides is produced by it, and every other data name is produced by the same plugin as before.", "quantifier": "every registry and plugin", "why_tests_cant": "Frame property over all registries.", "anchors": ["appletree/component.py: ComponentSim.register"]}
{"id": "C09", "title": "Component registration in a likelihood is all-or-nothing", "statement": "If Likelihood.register_component raises, the likelihood's components and needed parameters are unchanged; if it succeeds exactly one component is added under the given name, previously registered components are untouched and a name is never registered twice.", "quantifier": "every likelihood state, component class, and failure point inside component construction, deduction or compilation", "why_tests_cant": "All failure points and all previous histories.", "anchors": ["appletree/likelihood.py: Likelihood.register_component"]}
{"id": "C10", "title": "One simulated component per likelihood name", "statement": "A component's compiled code is stored under the likelihood name in a write-once table: of all components deduced under the same likelihood name since the last clear_cache only the first succeeds, so a likelihood can hold at most one simulated component and a component cannot be re-deduced.", "quantifier": "every history of deduce / clear_cache calls over any components", "why_tests_cant": "History property of global mutable state.", "anchors": ["appletree/share.py: StaticValueDict, clear_cache", "appletree/component.py: ComponentSim.code"]}
{"id": "C11", "title": "1D irregular histogram counts right-closed bins", "statement": "make_hist_irreg_bin_1d returns one entry per bin and entry i is the sum of the weights of the samples x with edges[i] < x <= edges[i+1]; samples outside the edges contribute to no entry.", "quantifier": "every sample list, weight list and non-decreasing edge list", "why_tests_cant": "Boundary values and repeated edges are measure-zero for random tests.", "anchors": ["appletree/hist.py: make_hist_irreg_bin_1d"]}
{"id": "C12", "title": "1D histogram conserves weight", "statement": "The sum of the histogram equals the total weight of the samples in (first edge, last edge]; permuting events or splitting the sample into two parts and adding the histograms changes nothing.", "quantifier": "every sample, weights, edges, permutation and split", "why_tests_cant": "Universally quantified algebraic law.", "anchors": ["appletree/hist.py: make_hist_irreg_bin_1d"]}
{"id": "C13", "title": "2D irregular histogram counts the event in its own row's bin", "statement": "make_hist_irreg_bin_2d entry (i,j) is the weight of the events with x in the i-th x-bin and y in the j-th bin of the i-th row of y edges; events left of, right of, below or above the grid contribute to no entry, whatever value out-of-range row lookups return.", "quantifier": "every sample, weights, x edges and per-row y edges", "why_tests_cant": "The wrap-around and clamped lookups for out-of-range events have to be shown harmless for every input.", "anchors": ["appletree/hist.py: make_hist_irreg_bin_2d"]}
{"id": "C14", "title": "Normalised component histogram sums to its rate", "statement": "For a component normalised on its pdf, simulate_hist returns a histogram whose total is exactly the rate parameter whenever the unnormalised total is non-zero, so the model histogram of a likelihood totals the sum of the rates of its components and get_num_events_accepted returns that sum.", "quantifier": "every simulated sample, efficiencies, binning and parameter values", "why_tests_cant": "Holds for all samples, including after the floor is applied.", "anchors": ["appletree/component.py: Component.get_normalization, ComponentSim.simulate_hist, ComponentFixed.simulate_hist", "appletree/likelihood.py: Likelihood._simulate_model_hist, get_num_events_accepted"]}
{"id": "C15", "title": "Floored histogram keeps every bin strictly positive", "statement": "With the histogram floor enabled (the default) and non-negative efficiencies, every bin of the unnormalised histogram is at least 1e-10 plus the mean efficiency and never below the plain histogram; hence with positive rate every model bin is positive and the log-likelihood is finite.", "quantifier": "every non-empty sample, efficiencies in [0,1], binning, positive rate and data histogram", "why_tests_cant": "Emptiness of particular bins depends on the sample; the guarantee has to hold for all.", "anchors": ["appletree/component.py: Component.implement_binning", "appletree/likelihood.py: Likelihood.get_log_likelihood"]}
{"id": "C16", "title": "Log-likelihood is never NaN or +inf", "statement": "Likelihood.get_log_likelihood returns either -inf or a finite number; it returns -inf iff some model bin is zero, negative, infinite or NaN, and otherwise the Poisson sum of data*log(model)-model.", "quantifier": "every model histogram with arbitrary extended float entries and every finite data histogram", "why_tests_cant": "NaN and infinity propagation through all combinations of bins.", "anchors": ["appletree/likelihood.py: Likelihood.get_log_likelihood"]}
{"id": "C17", "title": "Poisson likelihood is maximised by the data", "statement": "For a fixed data histogram with positive bins, the binned Poisson log-likelihood of any positive model histogram is at most its value at model = data, with equality only there; scaling a model shape is optimal exactly when its total equals the total of the data.", "quantifier": "every pair of positive histograms of the same length", "why_tests_cant": "A global optimality statement over a continuum.", "anchors": ["appletree/likelihood.py: Likelihood.get_log_likelihood"]}
{"id": "C18", "title": "Alias replacement is pure and renames exactly", "statement": "replace_alias leaves the caller's dictionary unchanged; when no alias name is also a target name it moves each present alias's value to its target, removes the alias, leaves everything else untouched, and applying it twice is the same as once (the likelihood applies it twice).", "quantifier": "every parameter dictionary and alias table", "why_tests_cant": "All dictionaries and tables, including chains of aliases for which the property fails.", "anchors": ["appletree/likelihood.py: Likelihood.replace_alias, need_replacing_alias"]}
{"id": "C19", "title": "Providing needed_parameters suffices after aliasing", "statement": "If a parameter dictionary provides every name in the likelihood's needed_parameters then, after alias replacement, every parameter needed by each of its components is present. This holds for alias tables whose names and targets do not overlap, for components that do not themselves need a parameter called like an alias; it fails for chains of aliases and for a component that needs an alias name itself. With distinct targets needed_parameters is exactly the components' needs with targets replaced by their aliases.", "quantifier": "every alias table, every set of components and every dictionary", "why_tests_cant": "Quantifies over tables and component sets.", "anchors": ["appletree/likelihood.py: Likelihood.register_component, replace_alias"]}
{"id": "C20", "title": "Component order and key threading in the model histogram", "statement": "The model histogram is the sum of the component histograms; each simulated component receives the key returned by the previous one, fixed components do not consume randomness, and the order of fixed components is irrelevant.", "quantifier": "every list of components and key", "why_tests_cant": "All component lists and random streams.", "anchors": ["appletree/likelihood.py: Likelihood._simulate_model_hist"]}
{"id": "C21", "title": "Log prior is -inf exactly outside the allowed range", "statement": "Parameter.log_prior is -inf iff some non-fixed parameter lies outside its allowed range, otherwise it is finite; the values of fixed parameters never influence it. A uniform prior does not restrict the parameter to [lower, upper]: only the allowed range counts.", "quantifier": "every parameter configuration with positive widths and every assignment of finite values", "why_tests_cant": "Continuum of values and all configurations.", "anchors": ["appletree/parameter.py: Parameter.log_prior"]}
{"id": "C22", "title": "Sampled parameters stay in the allowed range", "statement": "After sample_prior or sample_init every non-fixed parameter of a known prior type lies in its allowed range and every fixed parameter equals its configured value, whatever the random numbers are; no parameter is added or removed.", "quantifier": "every configuration with non-empty ranges and every random stream", "why_tests_cant": "All random outcomes, including the tails that sampling tests never reach.", "anchors": ["appletree/parameter.py: Parameter.sample_prior, sample_init, init_parameter"]}
{"id": "C23", "title": "set_parameter is atomic on unknown names and last-wins", "statement": "If any name is unknown or the lengths differ, set_parameter raises and no parameter changes; otherwise exactly the listed parameters change, a name listed twice gets its last value, and no parameter is created.", "quantifier": "every current state and every argument (name, list, dictionary, set, other)", "why_tests_cant": "All argument shapes and duplicates.", "anchors": ["appletree/parameter.py: Parameter.set_parameter, check_parameter_exist"]}
{"id": "C24", "title": "Fit vector round-trip", "statement": "parameter_fit lists the non-fixed parameters in strictly increasing order, independent of configuration order; writing a vector with those names and reading parameter_fit_array returns the vector, and all fixed parameters keep their values.", "quantifier": "every configuration and every vector of the right length", "why_tests_cant": "All configurations and permutations of their entries.", "anchors": ["appletree/parameter.py: Parameter.parameter_fit, parameter_fit_array, set_parameter"]}
{"id": "C25", "title": "log_posterior never simulates outside the prior support and keeps fixed parameters", "statement": "When the log prior is not finite log_posterior returns -inf without evaluating any likelihood; otherwise it returns the sum of all likelihoods' values plus the prior (averaged over the repetitions); the call changes only the parameters passed in.", "quantifier": "every context, parameter dictionary, number of repetitions and likelihood behaviour", "why_tests_cant": "All contexts and oracle behaviours of the simulation.", "anchors": ["appletree/context.py: Context.log_posterior"]}
{"id": "C26", "title": "Config resolution: explicit value beats default, default is sticky", "statement": "A config resolves to the globally set value if there is one, otherwise to the plugin's default, which from then on is the value for every plugin and likelihood with a config of that name until the cache is cleared; building never changes an already set value.", "quantifier": "every cache state and every sequence of config builds", "why_tests_cant": "History property over the process-wide cache.", "anchors": ["appletree/config.py: Config._resolve_cached_config, Constant.build", "appletree/share.py: RecordingDict, clear_cache"]}
{"id": "C27", "title": "Per-likelihood values are isolated", "statement": "If a config is given as a table per likelihood name, a plugin built for likelihood L sees exactly the entry for L and raises ValueError if there is none; changing or adding entries of other likelihoods does not affect it.", "quantifier": "every table, likelihood name and cache state", "why_tests_cant": "Non-interference over all other entries.", "anchors": ["appletree/config.py: Config._resolve_cached_config, SigmaMap.get_configs"]}
{"id": "C28", "title": "Unused configs are exactly those never looked up", "statement": "check_unused_configs never reports a config that was looked up successfully since the cache was last cleared, and always reports a set config that no operation since then looks up, so a config mis-spelled by the user is always reported. (A value set after the name was already looked up, e.g. after its default was used, is not reported although it was never used.)", "quantifier": "every interleaving of set_global_config, config builds, membership tests and clear_cache", "why_tests_cant": "All interleavings.", "anchors": ["appletree/share.py: RecordingDict, set_global_config", "appletree/utils.py: check_unused_configs"]}
{"id": "C29", "title": "set_global_config stores what it was given", "statement": "Setting a dictionary of configs makes every number and list readable back unchanged and every string resolved to a path, leaves other configs untouched, and on an unsupported value raises after applying exactly the entries before it; in a per-likelihood table, entries of unsupported type silently disappear.", "quantifier": "every configuration dictionary and cache state", "why_tests_cant": "All dictionaries and failure positions.", "anchors": ["appletree/share.py: set_global_config"]}
{"id": "C30", "title": "A plugin class never takes two configs of one name", "statement": "Applying takes_config keeps the parent's configs unchanged and adds the new ones, or raises RuntimeError if a name is already taken by the parent, in which case the class is unchanged.", "quantifier": "every class hierarchy and config list", "why_tests_cant": "All hierarchies and lists.", "anchors": ["appletree/config.py: takes_config"]}
{"id": "C31", "title": "SigmaMap interpolates median, lower and upper", "statement": "With scaler 0, +1, -1 a SigmaMap returns the median, upper and lower map; the result is continuous in the scaler, non-decreasing in it when lower <= median <= upper, and between lower and upper for scalers in [-1,1]. A static SigmaMap (single file) returns that map.", "quantifier": "every map values and every scaler", "why_tests_cant": "Continuum of values.", "anchors": ["appletree/config.py: SigmaMap.apply"]}
{"id": "C32", "title": "SigmaMap requires exactly one parameter iff it is given as a list", "statement": "A SigmaMap requires the fourth list entry if there is one, the default name if the list is shorter, and no parameter for a single file; the parameter it reports while deducing the workflow is the one it reads when applied to the same likelihood.", "quantifier": "every config value and likelihood name", "why_tests_cant": "All config shapes.", "anchors": ["appletree/config.py: SigmaMap.required_parameter, get_configs, build"]}
{"id": "C33", "title": "Curve interpolation is clamped piecewise-linear interpolation", "statement": "For strictly increasing reference points curve_interpolator equals linear interpolation between the neighbouring reference points, returns the reference value at a reference point, and the end value outside the range; in particular the result lies between the smallest and largest reference value.", "quantifier": "every query, every non-empty strictly increasing reference list and value list", "why_tests_cant": "Continuum of queries and all reference lists.", "anchors": ["appletree/interpolation.py: curve_interpolator, map_interpolator_linear_1d"]}
{"id": "C34", "title": "Bilinear and trilinear maps are exact at nodes, bounded, and clamp outside", "statement": "The LERP interpolators return the node value at every grid node, reproduce affine maps exactly inside the box, stay between the extreme corner values, and outside the box equal the value at the nearest point of the box.", "quantifier": "every grid size >= 2 per axis, box, map and query position", "why_tests_cant": "Continuum of positions and all grids.", "anchors": ["appletree/interpolation.py: map_interpolator_regular_binning_bilinear_2d, map_interpolator_regular_binning_trilinear_3d"]}
{"id": "C35", "title": "Inverse-distance maps are weighted averages of cell corners", "statement": "The IDW interpolators return a convex combination of the values at the corners of the cell containing the query (hence bounded by them and constant on constant maps), weights decreasing with distance, for every position inside or outside the box.", "quantifier": "every grid, map and position", "why_tests_cant": "Continuum of positions; out-of-range corner lookups.", "anchors": ["appletree/interpolation.py: map_interpolator_regular_binning_2d, map_interpolator_regular_binning_3d, map_interpolator_knn"]}
{"id": "C36", "title": "Nearest-neighbour maps return the value of a closest node", "statement": "The NN interpolators return the map value at a node whose distance to the query is minimal along each axis (hence minimal in Euclidean distance), the lowest-index one on ties.", "quantifier": "every grid, map and position", "why_tests_cant": "Continuum of positions and ties.", "anchors": ["appletree/interpolation.py: find_nearest_indices, map_interpolator_nearest_neighbor_1d, map_interpolator_regular_binning_nearest_neighbor_2d, map_interpolator_regular_binning_nearest_neighbor_3d"]}
{"id": "C37", "title": "Conversion from pdf to cdf gives a distribution function", "statement": "For increasing points and non-negative densities with positive integral, the cdf map built from a pdf map is non-decreasing, lies in [0,1], and ends at exactly 1.", "quantifier": "every point list and density list", "why_tests_cant": "All inputs.", "anchors": ["appletree/config.py: Map.pdf_to_cdf, build_point", "appletree/utils.py: integrate_midpoint, cumulative_integrate_midpoint"]}
{"id": "C38", "title": "Log axes do not change linear axes", "statement": "With mixed linear and log axes the map is evaluated at the base-10 logarithm of the log-axis coordinates (after restricting them to positive single-precision numbers) and at the unchanged linear coordinates; a map with a non-positive bound on a log axis is rejected.", "quantifier": "every axis flag list, bounds and positions", "why_tests_cant": "All combinations of axes and coordinates.", "anchors": ["appletree/config.py: Map.preprocess, _validate_log_coords, build_regbin"]}
{"id": "C39", "title": "Binomial samplers return an integer between 0 and n", "statement": "For every random draw the hybrid sampler returns an integer k with 0 <= k <= n for integer n >= 0, 0 when p <= 0 or n <= 0, n when p >= 1 and n > 0; the normal-approximation sampler returns an integer in the same range.", "quantifier": "every p, n, threshold and every value of the underlying uniform and normal draws", "why_tests_cant": "All random outcomes.", "anchors": ["appletree/randgen.py: binomial_hybrid, binomial"]}
{"id": "C40", "title": "Random keys are never reused within a simulation", "statement": "Along a simulation every basic sampler draws from a sub-key that no other draw uses, and the returned key is fresh, for any sequence of sampler calls threading the key; twohalfnorm violates this by drawing its uniform and its normal from one sub-key.", "quantifier": "every sequence of sampler calls", "why_tests_cant": "Statement about all programs of sampler calls.", "anchors": ["appletree/randgen.py: uniform, poisson, gamma, normal, skewnormal, bernoulli, binomial, negative_binomial, generalized_poisson, twohalfnorm"]}
{"id": "C41", "title": "Two-half-normal density has its mode at mu and halves agree", "statement": "TwoHalfNorm.logpdf is maximal at mu, strictly decreasing away from it on both sides, continuous at mu, symmetric when both widths agree; samples above mu are scaled by the upper width and below by the lower width.", "quantifier": "every mu, positive widths and argument", "why_tests_cant": "Continuum.", "anchors": ["appletree/randgen.py: TwoHalfNorm.logpdf, TwoHalfNorm.rvs"]}
{"id": "C42", "title": "Electronic-recoil quanta are conserved", "statement": "In the ER microphysics chain photons plus electrons equals the number of quanta in every event, ions plus excitons equals the number of quanta, and all counts are non-negative, whatever the random draws are.", "quantifier": "every energy, parameter values and random draws allowed by the samplers' ranges", "why_tests_cant": "All random outcomes and parameter values.", "anchors": ["appletree/plugins/er_microphys.py: Quanta, IonizationER, RecombinationER"]}
{"id": "C43", "title": "NEST nuclear-recoil and electronic-recoil quanta bookkeeping", "statement": "In the NEST chains electrons never exceed ions, photons are at least the excitons, photons plus electrons equals ions plus excitons whenever no clipping is active, and all counts are non-negative, for nuclear recoils as long as the light yield leaves room for the ions (mean number of excitons not negative); otherwise the counts of nuclear recoils can be undefined.", "quantifier": "every parameter value and random draw", "why_tests_cant": "All random outcomes.", "anchors": ["appletree/plugins/nestv2.py: TrueExcitonIonNR, TruePhotonElectronNR", "appletree/plugins/er_nestv2.py: TrueExcitonIonER, TruePhotonElectronER"]}
{"id": "C44", "title": "Efficiencies are probabilities", "statement": "The total efficiency of every event is the product of its factors and lies in [0,1] whatever parameters and map values other than NaN are used.", "quantifier": "every map value, parameter and signal size", "why_tests_cant": "Continuum.", "anchors": ["appletree/plugins/efficiency.py"]}
{"id": "C45", "title": "File lookup precedence", "statement": "get_file_path returns an existing file given by the caller unchanged, else the file under the local url_base if that is an absolute folder and the file exists, else the packaged file in the first of maps, data, parameters, instructs that has it, else the auxiliary and database copies; it raises RuntimeError iff all fail; resolving a resolved existing file returns it unchanged.", "quantifier": "every file system, url_base and file name", "why_tests_cant": "All file systems.", "anchors": ["appletree/utils.py: get_file_path, _get_abspath"]}
{"id": "C46", "title": "Missing parameters are detected before fitting", "statement": "Context's sanity check is passed only if the parameter manager provides every needed parameter. This is false: the check only rejects superfluous parameters.", "quantifier": "every set of needed and provided parameters", "why_tests_cant": "All sets.", "anchors": ["appletree/context.py: Context._sanity_check"]}
{"id": "C47", "title": "copy_parameters keeps every copied parameter", "statement": "After constructing a context, each copied parameter has the prior configuration of its source and sources that are not component rates are removed; a parameter that is both copied and a source can be lost.", "quantifier": "every configuration and copy table", "why_tests_cant": "All tables including chains.", "anchors": ["appletree/context.py: Context.update_parameter_config"]}
{"id": "C48", "title": "Posterior parameters reflect the current chain", "statement": "get_post_parameters returns parameters of the current sampler state. This is false after continue_fitting: the first chain read is returned for ever.", "quantifier": "every sequence of fit, continue and read operations", "why_tests_cant": "History property.", "anchors": ["appletree/context.py: Context.get_post_parameters, continue_fitting"]}
{"id": "C49", "title": "A context can be restored from its backend", "statement": "from_backend rebuilds the context from an instruct equal to the one saved in the backend iff the instruct has no boolean, null or non-finite number (JSON text is evaluated as Python: NameError) and no character above U+FFFF (it comes back as two characters); dictionaries come back sorted by key, so the restored context has the same parameters unless a copied parameter is copied again in another likelihood (then its value or whether the context can be made depends on the order).", "quantifier": "every instruct", "why_tests_cant": "All instruct values.", "anchors": ["appletree/context.py: Context.from_backend, _dump_meta"]}
{"id": "C50", "title": "GPU memory fraction is set as requested", "statement": "set_gpu_memory_usage(f) makes the environment variable denote f rounded down to two decimals, capped at 0.99. False below 0.1 and at 1.", "quantifier": "every fraction", "why_tests_cant": "Continuum; boundary values.", "anchors": ["appletree/utils.py: set_gpu_memory_usage"]}
{"id": "C51", "title": "Extensions never silently overwrite", "statement": "Adding an extension module without force never changes an attribute already present in the target module; on a name clash of a class it raises ValueError. For a module with a dotted name the module attribute itself is overwritten silently.", "quantifier": "every pair of modules", "why_tests_cant": "All modules.", "anchors": ["appletree/utils.py: add_extensions, _add_extension"]}
{"id": "C52", "title": "Multiple simulations concatenate independent runs", "statement": "multiple_simulations returns, per output, the concatenation in order of the outputs of the single runs, each started from the key returned by the previous one, with only positive-efficiency events kept when apply_eff is set; times = 0 is rejected.", "quantifier": "every simulate function, key, times and flag", "why_tests_cant": "All functions and counts.", "anchors": ["appletree/component.py: Component.multiple_simulations"]}
{"id": "C53", "title": "Meshgrid histograms use left-closed bins", "statement": "make_hist_mesh_grid counts an event in bin i iff edges[i] <= x < edges[i+1], the last bin being closed on both sides (in each dimension); so on data lying on bin edges it disagrees with the irregular binning of the same edges, which is right-closed.", "quantifier": "every sample, weights and non-decreasing edges, one and two dimensions", "why_tests_cant": "Boundary values are measure-zero for random tests.", "anchors": ["appletree/hist.py: make_hist_mesh_grid"]}
{"id": "C54", "title": "A context's needed parameters are those of its likelihoods", "statement": "After any sequence of successful and failing registrations of likelihoods and components, the context's needed_parameters contain the copied parameters and all parameters needed by its likelihoods; and nothing else when alias names and alias targets are disjoint.", "quantifier": "every history of registrations", "why_tests_cant": "History property over all aliases and component needs.", "anchors": ["appletree/context.py: Context.register_component, register_likelihood", "appletree/likelihood.py: Likelihood.register_component"]}
{"id": "C55", "title": "One-dimensional regularly binned maps can be applied", "statement": "A map file with coordinate_type regbin (or log_regbin) and one axis builds, so applying it gives the interpolated value. This is false: the bounds reach the interpolator as arrays of shape (1,), the reference points get shape (M,1), and the search refuses them at the first call.", "quantifier": "all one-dimensional regular maps, all positions", "why_tests_cant": "No test builds such a map; the failure comes from the shapes passed between three functions, and only at the first simulation.", "anchors": ["appletree/config.py:272-318", "appletree/interpolation.py:97-115"]}
{"id": "C56", "title": "Point maps return the map values at their points", "statement": "A map given by points returns at each of its points the value given there. This holds for coordinate_type point; for log_point the values are passed through the logarithm as well, so the map returns log10 of its value.", "quantifier": "all point maps with increasing points, all methods IDW and LERP", "why_tests_cant": "A test on one map can show a discrepancy; that it occurs for every log_point map and no point map is a statement on all of them.", "anchors": ["appletree/config.py:233-270", "appletree/config.py:362-369"]}
{"id": "C57", "title": "Interpolated maps are continuous", "statement": "Maps interpolated with LERP are continuous in the position, with the steepest cell slope as bound; maps interpolated with IDW (the default) jump at the borders of cells.", "quantifier": "all grids in two and three dimensions, all pairs of positions", "why_tests_cant": "Continuity is a statement about all pairs of nearby points.", "anchors": ["appletree/interpolation.py:118-329"]}
{"id": "C58", "title": "The jax two-half-normal sampler can return every value", "statement": "randgen.twohalfnorm can return values arbitrarily close to mu on both sides, whatever the two widths. This is false when the widths differ: the uniform number choosing the side and the normal number are computed from the same key, so they are functions of one another, and a whole interval next to mu on the narrower side never occurs.", "quantifier": "every mu, pair of positive widths, key; every increasing map from uniform to normal numbers", "why_tests_cant": "A statement about values that never occur; and it depends on how two draws from one key are related.", "anchors": ["appletree/randgen.py:618-647", "appletree/plugins/nestv2.py:20-46"]}
{"id": "C59", "title": "Compound Poisson samplers return counts", "statement": "negative_binomial returns non-negative numbers; generalized_poisson returns at least its first generation, is exactly the Poisson draw when eta = 0 and, once its loop has stopped, does not depend on how long it could have gone on.", "quantifier": "every parameter in the documented ranges, every key, every draw", "why_tests_cant": "All random outcomes and all loop lengths.", "anchors": ["appletree/randgen.py:445-515"]}
{"id": "C60", "title": "Continuous samplers keep to their bounds", "statement": "uniform returns a value in [vmin, vmax), truncate_normal a value in [vmin, vmax] which is the underlying normal value whenever that lies inside; it is a clipped normal, so the bound itself has positive probability.", "quantifier": "every bounds, mean, width and draw", "why_tests_cant": "All random outcomes.", "anchors": ["appletree/randgen.py:43-66", "appletree/randgen.py:144-165"]}
{"id": "C61", "title": "The modified Thomas-Imel model of electronic recoils gives recombination probabilities", "statement": "mTI gives the Thomas-Imel recombination 1 - ln(1+t)/t damped by a sigmoid in energy; below t = 0.01 it uses a series whose error is at most t^3/4 and never above the exact value; mean, width and the drawn recombination fraction always lie in [0,1].", "quantifier": "every energy >= 0, field > 0 and parameters of the right sign; every draw", "why_tests_cant": "Continuum, including the branch point of the series.", "anchors": ["appletree/plugins/er_microphys.py: mTI, RecombFluct, TrueRecombER"]}
{"id": "C62", "title": "Detection never creates photons or electrons", "statement": "Detected photons are between 0 and the photons, photoelectrons between one and two per detected photon, drifted electrons between 0 and the electrons, the drift survival probability is in (0,1] and falls with depth, S2 is between one and two photoelectrons per detected photon and zero without electrons. This requires g2 <= gas gain: the extraction efficiency g2/gain is not clipped, so S2 saturates (hybrid binomial) or can become negative (jax binomial) above.", "quantifier": "every parameter in range, every position and draw", "why_tests_cant": "All random outcomes.", "anchors": ["appletree/plugins/detector.py", "appletree/plugins/reconstruction.py"]}
{"id": "C63", "title": "Generated events lie in the requested volume and energy range", "statement": "PositionSpectra generates points of the cylinder x^2+y^2 < r_max^2, z_min <= z <= z_max; the uniform spectra generate energies in the given range; fixed spectra apply the inverse cdf to a number in [0,1); mono-energetic lines are never negative.", "quantifier": "every bound, key and draw", "why_tests_cant": "All random outcomes.", "anchors": ["appletree/plugins/common.py", "appletree/plugins/nestv2.py:20-76"]}
{"id": "C64", "title": "The liquid xenon density has an effect on the charge yield of electronic recoils", "statement": "The charge yield of electronic recoils depends on liquid_xe_density, as that of nuclear recoils does. This is false for electronic recoils: the two powers of the density in QyER cancel, so the parameter has no effect whatever its value.", "quantifier": "every density, map, energy, field", "why_tests_cant": "That a parameter has no effect is a statement about all values.", "anchors": ["appletree/plugins/er_nestv2.py:35-88", "appletree/plugins/nestv2.py:91-102"]}
{"id": "C65", "title": "Mean yields are non-negative and conserve quanta", "statement": "Yields are never negative; nuclear-recoil means below one quantum count as none, add up to less than the quanta of the energy unless the charge alone exceeds them (there is no light then), and are zero at zero energy, where the light yield is 0/0; mean excitons and ions sum to the mean photons and electrons, mean ions are at least the mean electrons and the recombination probability is the fraction of ions that did not become electrons; in electronic recoils light and charge sum to energy/w unless the charge yield alone exceeds 1/w.", "quantifier": "every yield, energy, field with finite values", "why_tests_cant": "Continuum; clipping boundaries.", "anchors": ["appletree/plugins/nestv2.py:105-167", "appletree/plugins/er_nestv2.py:91-126"]}
{"id": "C66", "title": "Fluctuations of nuclear-recoil electrons have the requested mean and variance", "statement": "The number of electrons drawn for nuclear recoils has, before rounding and clipping, mean (1-recombination)*ions and variance equal to the given variance, whatever the skewness parameter is.", "quantifier": "every skewness, recombination probability, variance and pair of independent normal numbers (moments up to order two)", "why_tests_cant": "Moments are statements about distributions; sampling tests have statistical tolerance.", "anchors": ["appletree/plugins/nestv2.py:205-232", "appletree/randgen.py: skewnormal"]}
{"id": "C67", "title": "The recombination width never exceeds its amplitude", "statement": "OmegaER 'makes sure omega never exceeds ampl'. True without skewness; false with skewness, where the shape is normalised at the mean of the skewed distribution instead of its maximum.", "quantifier": "every parameter and field; error functions with the properties of erf", "why_tests_cant": "Continuum.", "anchors": ["appletree/plugins/er_nestv2.py:180-218"]}
{"id": "C68", "title": "Simulations of shipped plugins never reuse a random key", "statement": "A simulation chaining any of the shipped plugins in any order consumes every key at most once and never returns a consumed key. The exception is MonoEnergiesSpectra, which uses twohalfnorm.", "quantifier": "every sequence of plugins, parameters and keys", "why_tests_cant": "All compositions.", "anchors": ["appletree/plugins/*.py", "appletree/randgen.py"]}
{"id": "C69", "title": "The sign of delta_f selects the Fano factor", "statement": "Positive delta_f is used as the Fano factor itself, negative delta_f as scale of the density and field dependent factor; delta_f = 0 gives half of the constant term, the value of neither branch.", "quantifier": "every delta_f, density, yields and field", "why_tests_cant": "Continuum; the value at exactly 0.", "anchors": ["appletree/plugins/er_nestv2.py:129-158"]}
{"id": "C70", "title": "Dependency graphs show exactly the dependencies", "statement": "The graph drawn for a list of data names contains precisely the data needed for them and an edge for every dependency; the graph of plugins precisely the plugins providing them and an edge for every plugin providing a dependency. It can be drawn whenever no data needs itself and everything needed is registered.", "quantifier": "every registry and list of data names", "why_tests_cant": "All graphs; the traversal keeps a list of visited nodes.", "anchors": ["appletree/utils.py: add_deps_to_graph_tree, add_plugins_to_graph_tree"]}
{"id": "C71", "title": "A compiled component runs its own plugins with the configured values", "statement": "After deduce and compile, calling simulate returns the values of the dependency graph, each computed by an instance, made for the component's likelihood, of the class that appletree.plugins has under the name of the registered class (another class of that name is run instead, and a class not found there makes compile raise ImportError); a value set beforehand for a Constant or ConstantSet is used by every plugin taking that config, and such configs of the same name have one value throughout the component. A build that fails leaves simulate as it was: AttributeError if nothing was built before.", "quantifier": "every registry, request, configuration and history; plugins are arbitrary functions", "why_tests_cant": "Depends on how generated code, imports by name, namespaces and the shared configuration interact; tests exercise a few shipped models.", "anchors": ["appletree/component.py: flush_source_code, deduce, compile", "appletree/plugin.py: __init__"]}
{"id": "C72", "title": "Changing a config of a compiled component", "statement": "After set_config on a compiled component, running deduce() and compile() again, as the warning asks, makes the simulation use the new values and needed_parameters list what it then requires. This is false: that deduce never succeeds; compile() alone takes new values of constants but leaves needed_parameters stale and refuses a new map file; clear_cache, set_config, deduce and compile in this order works.", "quantifier": "every component, configuration and history between the calls", "why_tests_cant": "The write-once function table and the cached map files make the outcome depend on the whole history.", "anchors": ["appletree/component.py: set_config, deduce, compile", "appletree/share.py: clear_cache"]}
{"id": "C73", "title": "Lineage reports the values in use", "statement": "The lineage of a compiled component lists for every plugin instance the config values with which the simulation is run. True right after compile and unaffected by set_config; false once another likelihood using the same plugin class is compiled with another value.", "quantifier": "every component, configuration and history", "why_tests_cant": "The reported config objects are shared by all instances of a class.", "anchors": ["appletree/component.py: lineage", "appletree/plugin.py: lineage"]}
{"id": "C74", "title": "show_config lists exactly the configs of the workflow", "statement": "show_config lists the configs of precisely the plugins needed for the given data names, with default and the value current for the component's likelihood; a current value shown is what the next compile uses; for a deducible workflow without dependencies other than batch_size it fails exactly if a per-likelihood table lacks the likelihood.", "quantifier": "every registry, request, and configuration", "why_tests_cant": "All graphs and configurations.", "anchors": ["appletree/component.py: show_config"]}
{"id": "C75", "title": "A map with uncertainty uses the files it is given", "statement": "A SigmaMap built for a likelihood uses, in this order, the median, lower and upper files of its configured value (or the one file for all three), except for a part configured separately; values of any other form are refused, and so is a file differing from the one on record. Built without a likelihood name it ignores the configured value, and the files of its default then stick for all likelihoods.", "quantifier": "every configured value, default, likelihood name and configuration", "why_tests_cant": "All shapes of values and histories of the shared configuration.", "anchors": ["appletree/config.py: SigmaMap.build, _resolve_sigma_value, _update_sigma_cache"]}
{"id": "C76", "title": "Weighted data of a component agree with its histogram", "statement": "simulate_weighted_data of a component returns, in order and with unchanged observables, exactly the simulated events strictly inside the range of the bin edges of every axis, each with its efficiency times one factor as weight. Without the floor (add_eps_to_hist off), with events on no outermost edge, binning these data gives exactly what simulate_hist gives for the same key, batch size and parameters; if every returned event is in a bin the weights add up to the rate (to at most the rate with the floor). False beyond this: an event on the last edge is in the histogram but not in the data; with irregular two-dimensional bins events between the rows are kept and the weights can exceed the rate; the floor lowers the weights; a component with force_no_eff has a histogram but raises AssertionError for weighted data.", "quantifier": "every binning, simulation, key, batch size, rate and efficiency (finite for the agreement)", "why_tests_cant": "Edge events, gaps between irregular rows and the floor need particular events; the agreement is for all simulations.", "anchors": ["appletree/component.py: Component._clip, ComponentSim.simulate_weighted_data, ComponentFixed.simulate_weighted_data, ComponentSim.simulate_hist"]}
{"id": "C77", "title": "Weighted data of a likelihood join those of its components", "statement": "simulate_weighted_data of a likelihood returns the weighted data of its components one after the other in the order of registration, each simulated component starting from the key returned by the previous one and fixed components using no key, with aliases replaced; total weights add up; under the conditions of C76 binning the result gives the model histogram of the same key, batch size and parameters, and the same next key is returned. Without a component it raises ValueError although the model histogram exists.", "quantifier": "every list of components, alias dictionary, key, batch size and parameters", "why_tests_cant": "Any number of components and any simulation.", "anchors": ["appletree/likelihood.py: Likelihood.simulate_weighted_data, Likelihood._simulate_model_hist"]}
{"id": "C78", "title": "The literature likelihood sums weighted log densities over the points", "statement": "For variable_type twohalfnorm or norm, get_log_likelihood of LikelihoodLit with finite yields and efficiencies and positive widths returns the sum over the literature points of the simulated efficiency times the logarithm of the (two-half-)normal density of the point at the simulated yield, arrays of one entry standing for all points. It asks its component for exactly one event whatever batch_size, ignores the energies, is never NaN, is never +inf without negative efficiencies, and is largest exactly when every point of positive efficiency is at its centre. Widths of twohalfnorm that are not positive, arrays that do not fit, other densities, other than two observables, other than one component or three columns raise. False beyond this: a scale of norm that is not positive is not refused but gives -inf, and unknown arguments of twohalfnorm and norm are only noticed at the first evaluation.", "quantifier": "every component, array of arguments, yields and efficiencies, parameters, aliases, keys and batch sizes", "why_tests_cant": "Any number of points, any values; the maximum is over all yields.", "anchors": ["appletree/likelihood.py: LikelihoodLit.__init__, _sanity_check, _simulate_yields, get_log_likelihood", "appletree/randgen.py: TwoHalfNorm.logpdf"]}
{"id": "C79", "title": "The band likelihood reads centre and widths off the table", "statement": "For variable_type band, every simulated event within the energies of the table contributes efficiency times the logarithm of the two-half-normal density whose centre and widths lie on the polygons through the rows of the table (in whatever order the rows are given), and an event outside the table or with a NaN energy makes the whole value -inf. A width that is not positive is refused only when an event falls on it. False beyond this: an event of efficiency zero outside the table is not ignored but makes the value -inf, and with the shipped literature_lyqy.json an event drawn below 0.45 keV makes the ly_lux_2022 likelihood -inf whatever the parameters.", "quantifier": "every table of finite entries with distinct energies, events, efficiencies that are not negative (for -inf), keys and parameters", "why_tests_cant": "The polygon and the out-of-range rule are over all real energies.", "anchors": ["appletree/randgen.py: BandTwoHalfNorm", "appletree/likelihood.py: LikelihoodLit.get_log_likelihood", "appletree/instructs/literature_lyqy.json"]}
{"id": "C80", "title": "The data histogram counts the events inside the clip in the bins of the components", "statement": "The data of a Likelihood are the wanted columns of the events of the file strictly inside the clip, in the order of the file. Each entry of data_hist is the number of these events in the bin (right-closed for irreg and equiprob, left-closed for meshgrid); if the edges reach over the clip, as they do for a number of bins on a meshgrid and for equiprob, no event is lost and the sum of data_hist is the number of data. Equiprob bins keep, after their infinite edges are limited to the clip, the counts GOFevaluation gave them. Every histogram of a registered component has the shape of data_hist, and a fixed component made from the file of the data has data_hist itself as unnormalised histogram when no event outside the clip is in a bin. False beyond this: the clip is not ignored when edges are given (as the warning in the code says), so events between the clip and the outer edges are missing in the data but present in the model; and an event exactly at the upper limit is in the last bin of the model but never in the data.", "quantifier": "every config, file contents, result of GOFevaluation with ordered edges over the clip, and component", "why_tests_cant": "Any number of events, including events on edges, infinite clips and repeated edges.", "anchors": ["appletree/likelihood.py: Likelihood.__init__, _resolve_bin_edges, _make_data_hist, set_binning", "appletree/utils.py: get_equiprob_bins_1d, get_equiprob_bins_2d", "appletree/component.py: implement_binning"]}
{"id": "C81", "title": "A likelihood uses the bins it is asked for or refuses", "statement": "Construction of a Likelihood succeeds only for one or two observables that are columns of the file, as many bin groups as observables, with the clip of each axis, and one of the three bins_type; equiprob takes numbers only, irreg edges only. It succeeds for every such config, and the edges are then the given ones, or for a number n >= 1 on a meshgrid n bins of equal width over a finite clip. Other bins_on, bins that are no list for a list of observables, different numbers of bins and observables, and missing columns raise ValueError, AssertionError, RuntimeError and KeyError. False beyond this: a number of bins with bins_type irreg is refused although the code that resolves edges provides for it, and the clip is needed even where it is not used.", "quantifier": "every config and file contents", "why_tests_cant": "Every combination of bins_type, forms of bins and clips.", "anchors": ["appletree/likelihood.py: Likelihood.__init__, _resolve_explicit_bins, _validate_irreg_bins_2d, set_binning, _sanity_check"]}
{"id": "C82", "title": "log_posterior is the Poisson sum that the instruction describes", "statement": "For a Context constructed from an instruction, log_posterior(parameters) is the log prior of the updated parameters plus the sum over the likelihoods of the instruction (the mean of that sum over repetitions from new keys) of sum(data * log(model) - model), or -inf if a bin of the model is not a positive finite number. Here data are the counts of the events of the data file inside the clip, and model is the sum over the components: for a simulated component the plugins reachable from the observables and eff are each called once, on instances of this likelihood whose constants are those of the configs in the instruction, the random key being passed from one to the next and from one component and likelihood to the next; the events are histogrammed with their efficiency as weight, and scaled to the rate (by the sum of the histogram or by the number of simulated events); for a fixed component the events of its file are histogrammed and scaled. Parameters reach a likelihood after replacing its aliases. A literature likelihood contributes the value of its density instead of a Poisson sum.", "quantifier": "every instruction, set of plugin and component classes, state of the process before, parameters, batch size, keys and numbers of repetitions, with ordered bins, aliases without chains and unambiguous plugins", "why_tests_cant": "The statement is about the composition of all parts, for all plugin graphs and files.", "anchors": ["appletree/context.py: Context.__init__, register_all_likelihood, register_likelihood, register_component, log_posterior", "appletree/likelihood.py: Likelihood.__init__, register_component, get_log_likelihood", "appletree/component.py: deduce, compile, simulate_hist, ComponentFixed.simulate_hist", "appletree/utils.py: load_data"]}
{"id": "C83", "title": "After clear_cache a context is constructed as in a new process", "statement": "What Context(instruction) makes, or raises, depends on the process only through the configs set and the likelihood names in use; after clear_cache() it is as in a new process, whatever contexts, components and plugins have been made before. Without it a second context with a likelihood of the same name that has a simulated component always raises, whatever happens in between; so does every likelihood with two simulated components. False beyond this: a construction that failed uses up the names as well, so that the corrected instruction raises RuntimeError; and configs of an earlier context stay in effect for a later one whose instruction does not mention them, changing its posterior.", "quantifier": "every instruction, set of classes and history of the process", "why_tests_cant": "Tests run in one process in a fixed order; the histories are unbounded.", "anchors": ["appletree/context.py: Context.__init__", "appletree/component.py: ComponentSim.code, deduce, compile, set_config", "appletree/share.py: clear_cache, set_global_config, StaticValueDict"]}
{"id": "C84", "title": "Corrected signals are g1 times the photons and g2 times the electrons on average", "statement": "With the jax binomial sampler, the corrected S1 of an event is on average g1 * photons * (1 + bias) and the corrected S2 g2 * electrons * (1 + bias), whatever the position, the drift survival probability, the relative gas gain, the probability of double photoelectron emission and the smearing, times the ratio of the light collection efficiency at the true position to the correction at the reconstructed position (1 if the maps and positions agree); the draws come from different random keys. Reconstructed positions scatter around the true ones with mean square distance the square of the resolution, z is kept. Without bias and smearing an area is its number of photoelectrons, and it is zero without any. An area is not always positive: the smearing is unbounded.", "quantifier": "every event, map, parameter in range (detection probabilities at most 1, constant bias) and random number", "why_tests_cant": "A statement about averages over all draws of a chain of plugins; tests check shapes and single values.", "anchors": ["appletree/plugins/detector.py: S1LCE, S2LCE, PhotonDetection, S1PE, ElectronDrifted, S2PE", "appletree/plugins/reconstruction.py"]}
{"id": "C85", "title": "A well-formed workflow in a fresh likelihood always builds", "statement": "deduce followed by compile succeeds whenever: every name needed for the requested observables has a provider, no name depends on itself, the recursion limit exceeds the number of names, every class in use is the one found under its name in appletree.plugins, its simulate takes key, parameters and its dependencies in order, each config in use has a value of the right form for this likelihood (its default if unset) and the files it names are found, no two configs write the same key of the configuration, and the likelihood has not been deduced before. The condition on keys is needed: a config named like a part of a SigmaMap (cut_lower beside cut) makes a build fail with both usable.", "quantifier": "every registry, request, configuration, file system and process state satisfying the conditions", "why_tests_cant": "Success for all graphs, configurations and likelihood tables; tests build a few fixed components.", "anchors": ["appletree/component.py: deduce, compile", "appletree/plugin.py: __init__", "appletree/config.py: build"]}
{"id": "C86", "title": "Every shipped component simulates any of its observables", "statement": "The constructors of ERBand, ERPeak, ERBandNestV2, ERPeakNestV2, NR, MonoEnergiesYields and BandEnergiesYields never raise, and any shipped plugins can be registered on top in any order. Whatever list of names provided by a component's plugins is requested, deduce and compile succeed in a fresh likelihood whose configuration is usable, and the compiled function returns the value of the dependency graph for every one of them, computed by the registered classes. Without any configuration it is enough that the 16 default map files are found, all of which are in the package. A name that no plugin of the component provides is refused with ValueError.", "quantifier": "every shipped component, list of its observables, usable configuration, file system and process state", "why_tests_cant": "Covers every subset and order of the observables of every shipped component; tests request one or two.", "anchors": ["appletree/components/er.py", "appletree/components/nr.py", "appletree/components/yields.py", "appletree/plugins/*.py", "appletree/component.py: register_all, deduce, compile"]}
{"id": "C87", "title": "needed_parameters of a context is exactly what its instruction asks for", "statement": "After Context(instruct), needed_parameters consists of the targets of all copy_parameters and, for every component, of its rate, the parameters of the plugins in its workflow and the scalers of the maps they use in the configuration the constructor leaves behind, each under its alias if the likelihood has one. Giving a value to every needed parameter is enough: after the renaming by the aliases, everything a component needs has a value. The check before a fit passes exactly if the parameter manager has nothing beyond these. A refused component adds nothing, and a fixed component without a file is a ValueError (in a literature likelihood only if it is the first). Conditions: no alias is also a target, no parameter has two aliases, and plugin names are unambiguous.", "quantifier": "every instruction, parameter configuration, component class, file system and process state for which the constructor returns", "why_tests_cant": "Quantifies over all instructions and classes; a parameter missing from the set shows up only as a failure deep in a compiled simulation.", "anchors": ["appletree/context.py: __init__, register_component, update_parameter_config, _sanity_check", "appletree/likelihood.py: register_component", "appletree/component.py: simplify, ComponentFixed"]}
{"id": "C88", "title": "A literature likelihood in a context compares its points with one simulated event", "statement": "In a Context constructed from an instruction, a likelihood of type LikelihoodLit contributes to log_posterior the value of its density at what its only component gives when run for one event (whatever batch_size is), with the parameters renamed by the aliases of the likelihood and the configs of the instruction: for twohalfnorm and norm the sum over the measured points of efficiency times log density, for band the sum over the simulated events of efficiency times the log of the two-half-normal density interpolated from the table. An instruction with two or more components in such a likelihood is refused at construction; one without components is accepted, but log_posterior then raises for parameters inside the prior.", "quantifier": "every instruction, set of plugin and component classes, state of the process, measured points, parameters, keys and batch sizes", "why_tests_cant": "The statement composes construction, plugin graph, renaming and density for all instructions; tests run the shipped instruction once and look at no value.", "anchors": ["appletree/likelihood.py: LikelihoodLit", "appletree/context.py: Context.__init__, register_likelihood, register_component, log_posterior", "appletree/randgen.py: TwoHalfNorm.logpdf, BandTwoHalfNorm"]}
{"id": "C89", "title": "An instruction whose files, parameters and configs are there gives a context", "statement": "Context(instruct) succeeds whenever url_base (if any) and every file named in configs are found, every parameter copied from is in par_config and is not itself copied to, the parameter manager accepts the resulting configuration, and, with the configs set, every likelihood can be made (data file found and readable, a config that fits; or valid arguments of a LikelihoodLit), likelihood and component names differ, every likelihood has at most one simulated component (a LikelihoodLit only this one) and a name that is not in use, every component has a class whose workflow for the observables and the efficiency is complete and acyclic with importable plugins, or a fixed class with a readable file, and every config in use has a usable value for its likelihood and shares no key with another one. The context then has exactly the likelihoods of the instruction, the parameters of the manager, and the configs in use (but for the resolved paths of Maps) keep the values that were set. set_config itself succeeds iff every entry is a number, a boolean, a list, a file that is found, or a table whose files are found.", "quantifier": "every instruction, set of plugin and component classes, file system, parameter configuration and state of the process", "why_tests_cant": "Whether a construction goes through depends on files, registries, configs and parameters together; tests construct the shipped instructions in one environment.", "anchors": ["appletree/context.py: Context.__init__, register_all_likelihood, register_likelihood, register_component, update_parameter_config", "appletree/share.py: set_global_config", "appletree/likelihood.py: Likelihood.__init__, register_component", "appletree/component.py: register, deduce, compile", "appletree/config.py: Config.build"]}
{"id": "C90", "title": "The shipped instructions give contexts that need exactly the parameters they name", "statement": "In a fresh process, for each of the instructions rn220.json, rn220_ar37.json, neutron_low.json and literature_lyqy.json: if the map files named in its configs and in the defaults of appletree's plugins are found, its data files can be read and have the observables as columns (and the equiprobable binning of the data, where asked for, succeeds), and the parameter manager accepts a configuration with the names of its par_config file, then Context(instruct) succeeds, has exactly the likelihoods of the instruction, its needed_parameters are exactly the configured parameters after copying, the check before a fit passes, and every parameter that a component asks for has a value after the renaming.", "quantifier": "every file system and content of files with these properties, every parameter configuration with these names, every random state of the parameter manager", "why_tests_cant": "The tests construct some of the instructions with the files at hand; that needed and provided parameters agree in every such environment is a statement about all plugins, configs and aliases together.", "anchors": ["appletree/instructs/*.json", "appletree/components/*.py", "appletree/plugins/*.py", "appletree/context.py: Context.__init__, _sanity_check, update_parameter_config", "appletree/likelihood.py: register_component"]}
{"id": "C91", "title": "The shipped parameter files are usable as they are", "statement": "In every file in appletree/parameters names are not repeated, and every entry has a known prior type, a complete and valid prior, an initial guess and a prior centre within the allowed range, a positive width, and for a uniform prior the allowed range as support. A Parameter made from such a file succeeds with every fixed parameter at its value and every free one in its range, and has a finite log prior, also after sample_init. A shipped instruction with the file it names therefore gives a context with finite prior whose parameters are exactly the needed ones. Exception: er_nestv2.json contains hits_acceptance, which no plugin of appletree takes, so that a context for the component it is meant for is refused by the check before a fit.", "quantifier": "every random state, draws with finite results, every outcome of the root finder with positive widths for the two-half-normal entries", "why_tests_cant": "Tests run a few draws; a start value outside of its range shows only for rare random states, and no test fits with er_nestv2.json.", "anchors": ["appletree/parameters/*.json", "appletree/parameter.py: Parameter", "appletree/context.py: _sanity_check", "appletree/plugins/er_nestv2.py"]}
{"id": "C92", "title": "The profiler runs the workflow of the component and reports it", "statement": "After a component was deduced and compiled with valid, separate and usable configs from a consistent registry in which every name is provided by one class, profile_component reports exactly one entry per worksheet row (same plugin, provides, depends_on, order); every plugin of the workflow, and no other, is instantiated for the component's likelihood and run n_warmup + n_runs times on the values its providers returned last (batch_size for the first), and each call gets the random key that the call before it returned. With a timed run and a clock that does not go back every mean is a non-negative number and the timed runs together take at most the time spent; without timed runs the means are NaN, and without any run it fails with UnboundLocalError. profile_context and profile_full_simulation report under the same keys, one llh/component per simulated component. Exceptions: the class is looked up again by the first name the row provides and instantiated again with the current configuration, so a name that a later class also provides (KeyError, or another class timed under this name), a registration after the build, or set_config without a new build make the profiler run something other than simulate; names with slashes can collide.", "quantifier": "every registry, component, configuration, parameters, number of runs, clock and plugin behaviour with as many outputs as provided names", "why_tests_cant": "No test compares the calls that the profiler makes with the worksheet or the compiled function, and times cannot be pinned by an assertion.", "anchors": ["appletree/profiler.py: profile_plugin, profile_component, profile_context, profile_full_simulation, compare_plugin_vs_full", "appletree/component.py: dependencies_simplify, register"]}
{"id": "C93", "title": "plot_maps shows the map files in use, each once", "statement": "Right after a component was deduced and compiled from a registry in which every used plugin is the provider of all its names and is the class published under its name, _collect_maps lists exactly the files of the Map and SigmaMap configs held by the compiled instances: no two entries for the same file(s), every entry with a config that uses them and with exactly the names of all configs that do, and an entry for every map in use. In general, for any number of components, it lists the files that the class-level config objects of the worksheet's plugins point to. Exceptions: with a different map per likelihood only the files of the likelihood built last are shown for both; a plugin is looked up by the first name it provides, so a plugin registered for that name later hides the maps in use or ends the call with AttributeError; a component that was deduced but not compiled gives AttributeError.", "quantifier": "every registry, component, configuration and file lookup; every list of components for the general form", "why_tests_cant": "The tests plot one context; that deduplication loses no file and no name, and which instance a class-level config belongs to after several builds, are statements over all builds.", "anchors": ["appletree/plot.py: _collect_maps", "appletree/component.py: deduce, compile", "appletree/config.py: Map.build, SigmaMap.build"]}
{"id": "C94", "title": "The plot of a map shows what the map returns, and collapsing averages the asked nodes", "statement": "The bin centers that plots use are the nodes of the interpolation (equally spaced, or in equal ratios on logarithmic axes), with edges half a step to either side on the scale of the axis and, for increasing bounds, each node inside its bin. Bars on a linear axis fill the bins of their nodes. In an image the middle of every pixel is the node (or its log10) whose entry it shows, so for a LERP or NN map with two axes the pixel is what the map returns at the position drawn there. For every grid with distinct axis names _collapse_regbin_map succeeds: the axes not named stay as they are in order, every entry is the average over the nodes of the collapsed axes that lie in the given ranges (all nodes if none lies inside), whatever the order of the argument and whatever other names it has; averages stay between the smallest and largest entry. A grid gives one figure if one or two axes are left and none otherwise, never an exception. Exceptions: bars on a logarithmic axis do not fill their bins: every bar starts and ends below its bin and overlaps the next, and with one node per decade the bars reach below zero; a grid without nodes is an IndexError.", "quantifier": "every grid (any number of axes, nodes and bounds), every collapse argument; single precision rounding is not modelled", "why_tests_cant": "Tests look at shapes and at one collapse; the agreement of drawn positions with interpolation nodes and the independence of the order hold over real-valued grids of any dimension.", "anchors": ["appletree/plot.py: _regbin_edges_centers, _collapse_regbin_map, _plot_map_1d_regbin, _plot_map_2d_regbin, _plot_regular_map", "appletree/config.py: Map.map_regbin", "appletree/interpolation.py"]}
{"id": "C95", "title": "plot_maps returns every figure and saves every map under its name", "statement": "plot_maps returns the figures of all collected maps in order. With save=True, if the names of the map files (without directory and extension) differ and no format has a dot, then every map with one figure is in the file save_path/name.format for every format; different names or formats never share a file. A SigmaMap with one axis is drawn as median, lower and upper value at every node of the median. The collapse argument is found under any of the names of a map, and if at most one distinct entry is given the order of the names does not matter. Exceptions: a SigmaMap with two axes has three figures and only the upper one remains on disk; maps of the same file name in different directories overwrite each other; the lower and upper maps are drawn on the axes of the median whatever their own bounds are; with different entries for two names of the same map the one taken depends on the order of a set.", "quantifier": "every collection of maps, every content of the files, every collapse argument, directory and list of formats", "why_tests_cant": "The tests save into a temporary directory and look for one file; overwriting shows only when the written figures are compared.", "anchors": ["appletree/plot.py: plot_maps, _save_figure, _lookup_collapse, _plot_config, _plot_sigma_map, _plot_sigma_map_1d_regbin"]}
{"id": "C96", "title": "Plotter shows the chain, the priors and the best sample of a run", "statement": "From a backend file whose iterations all have the declared numbers of walkers and parameters, Plotter(file, discard, thin) keeps exactly the iterations thin-1+discard, 2*thin-1+discard, ... in which no walker has a log posterior that is not finite, in order; flat_chain is all finite samples read, one iteration after the other; param_mpe has one value per parameter, all of one sample whose log posterior no other finite sample exceeds, and for discard=0, thin=1 it is what Context.get_post_parameters('mpe') returns for the same file. plot_burn_in draws for every parameter, the log posterior and the log prior one curve per walker through the recorded values, at k*thin+discard (thin-1 below the iteration read, when none was dropped); plot_marginal_posterior histograms the finite samples of the parameter named in the title and draws, for norm, uniform and two-half-norm priors, a positive multiple of exp(log prior) at every value inside the allowed range, and no curve for a free parameter. With two or more fitted parameters, a kept iteration and drawable priors make_all_plots makes all five figures. Exceptions: after a dropped iteration all later points are drawn at the wrong iteration; if every iteration has a walker that is not finite the plotter is built but plots fail with ValueError; the density of a uniform prior is drawn outside its range as if allowed there, and equal bounds are a ZeroDivisionError; with one fitted parameter make_all_plots ends with IndexError after three of five figures; no finite sample is a ValueError.", "quantifier": "every chain, every discard and thin, every prior setting; emcee's backend and matplotlib are represented by the arrays read and the curves drawn, plot_corner by whether it succeeds", "why_tests_cant": "No test builds a Plotter from a chain with samples outside the prior range or with thin > 1; that positions and iterations agree is a statement over all masks.", "anchors": ["appletree/plot.py: Plotter.__init__, make_all_plots, plot_burn_in, plot_marginal_posterior, _norm_pdf, _uniform_pdf, _thn_pdf", "appletree/context.py: get_post_parameters", "appletree/parameter.py: log_prior"]}
{"id": "C97", "title": "plot_acceptance_fraction shows the fractions of steps in which walkers moved", "statement": "For a kept chain of n iterations and W walkers the cumulative curve has n-1 points; the k-th, drawn at k*thin+discard, is the number of moves of all walkers in the first k steps divided by k*W. For a window below n the moving curve has n-window points; each is the fraction of moves of all walkers in the last window steps. A window of n or more gives one point, the last of the cumulative curve. All values are in [0,1]. The number given for each walker is the average over k of its cumulative fractions. The plot is made unless every iteration was dropped (ValueError). Exceptions: the number of a walker is not its acceptance fraction (one move in two steps is shown as 0.75); with thin > 1 the shown fractions exceed those of the sampler (1 for a walker that moves every second step and thin=2); with one kept iteration the moving average and the numbers of the walkers are NaN.", "quantifier": "every chain shape and content, every window, discard and thin", "why_tests_cant": "Tests cannot tell a fraction from an off-by-one window; the statement counts moves over all chains.", "anchors": ["appletree/plot.py: plot_acceptance_fraction"]}
{"id": "C98", "title": "plot_autocorr estimates the integrated autocorrelation time", "statement": "The autocorrelation computed with zero-padded Fourier transforms is, at every lag below the length of the series, the autocovariance divided by the one at lag 0: 1 at lag 0, within [-1,1], without wrap-around. plot_autocorr gives for every fitted parameter, in order, ten points at N*thin, where N goes from 100 to the number n of kept iterations and never decreases if n is at least 100; the estimate at N is 1+2*(sum of the average autocorrelations of the walkers' first N values up to lag M), with M at least 1 the first lag that is at least five times the estimate up to it. Such a lag always exists, so an estimate never exceeds (N-1)/5 however slowly the chain moves. The plot is made for two or more parameters whenever an iteration was kept. Exceptions: one walker that never changes a parameter makes all its estimates NaN; with fewer than 100 kept iterations all ten points show the estimate of the whole chain although they are drawn at numbers of iterations that were not made; with one fitted parameter the call ends with IndexError (C96).", "quantifier": "every chain of real values, every number of iterations, walkers and parameters; the starting number 100 is a parameter of the model; rounding is not modelled", "why_tests_cant": "That the Fourier transforms give the linear autocorrelation, and that the automatic window always closes, are statements about all real series.", "anchors": ["appletree/plot.py: plot_autocorr (next_pow_two, autocorr_func_1d, auto_window, autocorr_new)"]}
{"id": "C99", "title": "errors_to_two_half_norm_sigmas has one answer, and it has the promised percentiles", "statement": "For every pair of positive errors the two equations that errors_to_two_half_norm_sigmas solves have exactly one solution among all pairs of numbers, and both its numbers are positive; so whatever point the root finder starts from, success means that answer. The two-half-normal distribution of TwoHalfNorm.logpdf with mode mu and these widths has the probability of a standard normal variable below -1 (16 percent) below mu minus the negative error, and that below 1 (84 percent) below mu plus the positive error. Equal errors are returned as they are, the larger error has the larger width, multiplying both errors by a positive number multiplies both widths, and exchanging the errors exchanges the widths. The density of TwoHalfNorm.logpdf is normalised for all positive widths. Two errors of zero have no solution: the call cannot succeed.", "quantifier": "all pairs of positive real errors, every sound root finder (one whose success means a root), every mode; the error function is the one with derivative 2/sqrt(pi)*exp(-x^2), value 0 at 0 and limit 1 (shown to exist); rounding and the tolerance of scipy.optimize.root are not modelled", "why_tests_cant": "That a system of two transcendental equations has one solution among all pairs of numbers, including negative ones the root finder may wander to, is beyond any finite set of errors.", "anchors": ["appletree/utils.py: errors_to_two_half_norm_sigmas", "appletree/randgen.py: TwoHalfNorm.logpdf"]}
{"id": "C100", "title": "Every sample that a fit records is one the user allowed", "statement": "Whatever the moves propose and however the fit ends, every sample that Context.fitting records has a finite value inside its allowed range for every fitted parameter, in the order of the sampler's parameter names; the log posterior and log prior recorded with it are those of an evaluation of log_posterior at that sample, and never NaN; every iteration has all walkers, and a fit that returns has recorded as many iterations as asked for. A walker that has reached a log posterior above -inf never goes back to -inf. After the fit the fixed parameters have their configured values and no parameter was added. After the first fit of a context get_post_parameters() has all parameters: the fitted ones from a best recorded sample, the fixed ones as configured; the same is written to the file. A parameter that no component needs is a RuntimeError before anything happens. A fit that fails later (e.g. with fewer walkers than twice the number of parameters) has already erased the run that was in the file. A proposal of a symmetric move is taken exactly if the log posterior rises by more than the logarithm of a uniform number, so one that is not worse always is.", "quantifier": "all configurations with initial guesses and non-empty ranges, all likelihood functions, all moves of emcee's kinds that propose positions of the right dimension, all numbers of walkers, iterations, repetitions, every random generator whose normal draws are finite, with and without a file", "why_tests_cant": "Which samples occur depends on random moves and simulations; a test sees one chain of the unbounded set of possible ones.", "anchors": ["appletree/context.py: Context.fitting", "appletree/context.py: Context.pre_fitting", "appletree/context.py: Context.log_posterior", "appletree/context.py: Context.get_post_parameters"]}
{"id": "C101", "title": "Continuing a fit is one longer fit, except for what the file says about the best sample", "statement": "With a file, fitting n iterations and then continue_fitting() for m more gives the same iterations, generator state, parameter values, number of log posterior evaluations and result or exception as fitting n+m iterations at once; continuing in pieces is continuing once; a context made from the file in another session (from_backend) continues it in the same way. Exceptions: the post_parameters written to the file after continuing in the same context are those of the best sample of the first fit (the chain was cached), while a context made from the file writes those of a best sample of all. Continuing the run of another context keeps what the own file contains and adds samples with the guarantees of a fit if the other run ended inside the allowed ranges; otherwise it records samples outside of them (with log posterior -inf), and the names are not compared: the values of the other context's parameters are used for this one's if only the numbers of walkers and parameters agree. A file of another shape is a ValueError and nothing changes. Without a file continue_fitting() of the own run is a ValueError and the chain is lost. The file of a fit that failed cannot be opened by from_backend (KeyError), although its iterations are there.", "quantifier": "all configurations, likelihood functions, moves, numbers of walkers and iterations n > 0, all files in progress", "why_tests_cant": "The equality of two runs must hold for every seed, move and stopping point; a test compares one pair.", "anchors": ["appletree/context.py: Context.continue_fitting", "appletree/context.py: Context.fitting", "appletree/context.py: Context._dump_meta", "appletree/context.py: Context.from_backend"]}
{"id": "C102", "title": "Components with the same lineage simulate the same, up to what the lineage leaves out", "statement": "If two components that have been deduced and compiled, possibly in two processes with different files and configurations, have equal lineages, and the plugin classes of the same name have the same method simulate and kinds of configs, and the maps of the same name the same scaler, then simulate returns the same for every key, batch size and parameters; with the same force_no_eff and add_eps_to_hist simulate_hist does too. Moving files between directories without renaming or changing them leaves the lineage as it was; changing the content of a map file changes it. Each of the provisos is needed: the source of the plugins, the name of the scaler, force_no_eff (which stays set once it was) and add_eps_to_hist are not part of the lineage, and a file is hashed when the lineage is asked for, so that a component compiled before a map file was rewritten has the lineage of one compiled after. dump_lineage writes the lineage, except that it raises TypeError if a needed plugin has a ConstantSet.", "quantifier": "all plugin graphs, classes, configurations, files and source code of plugins, all keys, batch sizes and parameters; hash functions without collisions", "why_tests_cant": "A lineage stands for all inputs of the simulation function at once; a test can compare hashes but not that equal hashes mean equal functions.", "anchors": ["appletree/component.py: ComponentSim.lineage", "appletree/plugin.py: Plugin.lineage", "appletree/config.py: Constant.lineage", "appletree/config.py: Map.lineage", "appletree/config.py: SigmaMap.lineage", "appletree/config.py: ConstantSet.lineage", "appletree/utils.py: dump_lineage", "appletree/utils.py: calculate_sha256"]}
{"id": "C103", "title": "The parameters read from a fit are allowed, and a template is simulated with the best of them", "statement": "After the first successful fit of a context get_post_parameters returns, for 'mpe', 'random' and 'median', every configured parameter: the fitted ones finite and in their allowed ranges, the fixed ones with their configured value. 'random' gives a recorded sample, 'median' gives for each fitted parameter the median of its recorded values: the middle of the numbers that have at least half of them on either side. The medians together need not be a sample, and their log posterior may be minus infinity although that of every sample is not. get_template(likelihood, component, batch_size, seed) returns what the method simulate of the component returns with the parameters of a best recorded sample; for a component made by the context these are the events of which the likelihood makes the histogram of the component, with the same key, batch size and parameters. It raises AttributeError before a fit, KeyError for unknown names, and TypeError for a component with fixed events. The parameter_alias of the likelihood is not applied to the parameters, so that a context with a finite log likelihood at its best sample may have no template (KeyError).", "quantifier": "all configurations, likelihoods, moves, numbers of walkers and iterations; all chains of finite numbers of any length; all instructions, files and plugins for the templates", "why_tests_cant": "The values come from a random chain; a test can look at one chain but not at every chain that a sampler may produce.", "anchors": ["appletree/context.py: Context.get_post_parameters", "appletree/context.py: Context.get_template", "appletree/likelihood.py: Likelihood.replace_alias"]}
{"id": "C104", "title": "Compiling again changes nothing, and multiple_simulations_compile is compile and multiple_simulations", "statement": "For a built component whose likelihood is still registered, compile() twice in a row gives the same simulate function and leaves every config as it is (unless a plugin has a config url_base that the compilation sets). multiple_simulations_compile(key, batch_size, parameters, times) with times > 0 and a config g4 set returns, for a component without a bootstrap energy (or with an empty g4 that is no table), exactly what compile() followed by multiple_simulations returns, errors included, so it works with the configuration of the moment while multiple_simulations alone works with that of the last compilation. With a bootstrap energy each run uses a function of its own in which every plugin that takes g4 has [file, batch_size, sum of the key the run starts from], file being the first item of the user's g4; the runs are chained by their keys and the outputs concatenated. Exceptions to what one would expect: without a config g4, or without a plugin for energy, it raises KeyError for every component; with times = 0 it raises UnboundLocalError and not the message of multiple_simulations; of a g4 that is just a file name only the first letter is kept; the user's g4 is overwritten, also if a run fails, and what is left is the entry of the last run begun (entries of other likelihoods stay).", "quantifier": "all plugins, configs, file systems, histories without clear_cache, numbers of runs, keys and simulation functions", "why_tests_cant": "Equality of two compiled functions cannot be observed by running them on samples, and the number of plugins, configs and interleaved operations is unbounded.", "anchors": ["appletree/component.py: Component.multiple_simulations_compile", "appletree/component.py: Component.multiple_simulations", "appletree/component.py: ComponentSim.compile", "appletree/config.py: Config._resolve_cached_config", "appletree/config.py: SigmaMap.build"]}
{"id": "C105", "title": "The picture of a histogram with irregular bins shows its bins and contents", "statement": "plot_irreg_histogram_2d(bins_x, bins_y, hist) for n columns of m bins draws n*m rectangles, rectangle i*m+j over the edges of bin (i, j), with the value hist[i, j] or, with density=True, hist[i, j] divided by the area of the rectangle. If hist is the histogram that appletree makes of events, the value is the weight of the events inside that rectangle (left and lower border excluded). With density=True and areas that are not zero, the sum of value times area is the sum of the histogram. The ends of the colour scale are vmin and vmax if given, otherwise the least and largest value; a rectangle's place on it is linear in the value, and with the default scale it is in [0, 1], ordered as the values are, with both ends used unless all values are equal. Every rectangle is inside the limits of the axes and each limit is the border of a rectangle. Empty or ragged histograms and a vmax below vmin raise ValueError, more columns than bins raise IndexError. Exceptions to what one would expect: with density=True one empty bin of zero area makes the colours of all rectangles NaN, and a histogram with fewer entries than bins is drawn without an error.", "quantifier": "all numbers of bins, edges, histograms, events and colour limits", "why_tests_cant": "Tests compare a few pictures; that every rectangle of every binning carries the weight of the events inside it needs a statement for all binnings and events.", "anchors": ["appletree/utils.py: plot_irreg_histogram_2d", "appletree/hist.py: make_hist_irreg_bin_2d"]}
{"id": "C106", "title": "Contexts with the same lineage have the same log_posterior", "statement": "If the lineages of two Contexts are equal, their parameters, likelihoods and components were registered in the same order, plugin classes of the same name have the same source, add_eps_to_hist, no_eff flags and the names of map scalers agree (a lineage does not hold them), no component's plugin classes were given other values by another likelihood since it was compiled, and the hashes have no collisions, then log_posterior is the same for all parameters, batch sizes, keys and repeat_times: value, prior, the calls of the likelihoods and the parameters afterwards, wherever the files of the plugins are and whatever the parameters were initialised to. A lineage holds the instruction without likelihoods and par_config, the parameters, and per likelihood its config, the base name and hash of the data file and the lineages of its components (of a LikelihoodLit: only their hashes); it exists exactly if every simulated component has one, every fixed component has bins and a file, and every likelihood but a LikelihoodLit has a data file. A component satisfies the condition on its classes right after deduce and compile, and keeps it when components of other likelihoods are compiled that give its classes the same values. dump_lineage works exactly if no Likelihood that is not a LikelihoodLit has a component with a ConstantSet (TypeError otherwise). Exceptions to what one would expect: the order of the likelihoods changes log_posterior but not the lineage; with configs given per likelihood the lineage holds the values of the likelihood compiled last, so a changed file of another one is not seen; the same data file in another directory changes the lineage.", "quantifier": "all contexts, files, configurations, random generators, parameters, batch sizes and repetitions", "why_tests_cant": "Tests compare a few hashes; that equal lineages imply equal posteriors is a statement about pairs of all possible contexts, processes and files.", "anchors": ["appletree/context.py: Context.lineage, lineage_hash, log_posterior", "appletree/likelihood.py: Likelihood.lineage, LikelihoodLit.lineage", "appletree/component.py: ComponentSim.lineage, ComponentFixed.lineage", "appletree/utils.py: dump_lineage"]}
{"id": "C107", "title": "A copy of a component simulates the same events", "statement": "new_component makes a component of the same class, named with the suffix _copy, with the binning if asked for; it raises ValueError exactly if the binning is to be passed and there is none or none of a known kind. Deduced and compiled for its own likelihood at any later time, the copy simulates, for every key, batch size and parameters, exactly the events of the original, provided that its likelihood name finds in the configuration what the name of the original finds, for every config of the plugins that are used, and that no plugin was registered on the original itself. Right after the original was built this is so for every config that is not given per likelihood, if the name is new; maps with a scaler included. Given the rate_name of the original, its histograms are the same too. Exceptions to what one would expect: the copy has no rate_name, so without that it cannot be normalised; plugins registered on the original are silently replaced by those of the class; a config given per likelihood has no entry for the copy (ValueError); a copy with the likelihood name of a component that was built, or the second copy with the default name, cannot be built; a ComponentFixed cannot be copied.", "quantifier": "all component classes, plugins, configurations, files, likelihood names, keys, batch sizes and parameters", "why_tests_cant": "A test copies one component and looks at its name; that the events agree for all keys and parameters, and under which configurations, is not visible in a run.", "anchors": ["appletree/component.py: Component.new_component, ComponentSim.__init__, set_binning, deduce, compile", "appletree/likelihood.py: register_component", "appletree/config.py: SigmaMap.build"]}
{"id": "C108", "title": "On-simulation normalisation divides by the events that this component counted", "statement": "With norm_type on_sim and without the floor, every bin of simulate_hist of a compiled ComponentSim is the rate times the sum of the efficiencies of its events over the number of events counted: the batch size, or, if the energy comes from a class with Bootstrap in its name, the number of events selected by the very plugin instance that the compiled simulation calls; this stays so after other components are deduced and compiled, the configuration is changed, or the component is compiled again. The total is then the rate times the accepted fraction of the counted events, at most the rate if no more events are simulated than are counted. With the floor every bin is at least the rate times (1e-10 + mean efficiency) over the number. Exceptions to what one would expect: the floor, which is the default, can make the total exceed the rate; a component without provider of energy, one whose bootstrap is registered but not needed for the outputs, and one with a bootstrap after clear_cache raise KeyError though they simulate; if another component of the same name and likelihood is built after clear_cache, its number is silently used for the first; a ComponentFixed raises AttributeError.", "quantifier": "all plugin graphs, configurations, histories without clear_cache, binnings, simulated events with efficiencies in [0, 1], rates and numbers of events", "why_tests_cant": "The instance is found by name in a process-wide table, so a test of one component cannot show that it stays the right one after other components are built; the total is bounded for all simulated events only by a proof.", "anchors": ["appletree/component.py: Component.get_normalization, _use_mcinput, implement_binning, ComponentSim.simulate_hist, deduce, compile", "appletree/share.py: _cached_functions, clear_cache"]}
{"id": "C109", "title": "The text of the generated code means the deduced workflow", "statement": "After deduce, Python reads the text in code (the one save_code writes) as exactly the deduced workflow: the imports, one instance per plugin made for this likelihood, and one call per plugin in the order of the worksheet, returning the key and the requested data; two workflows with the same text are the same. Executing the text, in whatever namespace and after whatever changes of the configuration, raises or succeeds as compile does, leaves the same configuration, and leaves a function that computes what simulate computes. This holds if the names of the data, plugins and function are identifiers and not reserved words, the component's name consists of letters, digits and underscores, the likelihood's name has no quote, backslash or line end, and no instance (class_component) has the name of a plugin class, of the function or of a data field. Without this, deduce still succeeds, but: a component called er-band or data called lambda is a SyntaxError when compiling; with a backslash or two adjacent quotes in the likelihood's name the plugins are made for a likelihood of another name and do not find its configuration; a plugin class called like the instance of another is a TypeError, a data field called like an instance a NameError in every simulation. A recompilation that fails half way leaves the plugins before the failing one replaced, so that the old function mixes new and old plugins.", "quantifier": "all plugin graphs, component, likelihood, function and data names, configurations, namespaces, plugin semantics and inputs", "why_tests_cant": "The code is assembled as a string and handed to exec; tests run it for a few names, while the claim is about every name a user may choose and about what the interpreter makes of the text.", "anchors": ["appletree/component.py: ComponentSim.flush_source_code, code, deduce, compile, save_code"]}
{"id": "C110", "title": "Generated energies and positions follow the distribution asked for", "statement": "Stated as exact sets of the uniform random numbers drawn from jax: with UniformEnergySpectra the energy is at most c exactly if its random number is at most (c - lower)/(upper - lower). With FixedEnergySpectra and a spectrum given as strictly increasing cdf and energy columns, the energy is never outside the table and is at most c exactly if the random number is at most the cdf at c, straight lines between the rows; a table that starts above 0 or ends below 1 puts the missing part on its first or last energy. With PositionSpectra, height, radius and azimuth lie in a sector of the cylinder exactly if the three random numbers lie in a box whose volume is the sector's part of the cylinder's volume, so positions are uniform in volume. A spectrum given as a pdf is different: the energy is at most the middle of an interval with the probability of everything up to the end of that interval, so the spectrum is shifted by half an interval, and the part of all events that belongs to the first interval has exactly one energy, the middle of that interval.", "quantifier": "all tables, bounds, keys, event numbers and uniform random numbers in [0, 1)", "why_tests_cant": "A histogram of samples can only be compared within statistical errors for a few tables; the claim is an identity for every table and random number.", "anchors": ["appletree/plugins/common.py: UniformEnergySpectra, FixedEnergySpectra, PositionSpectra", "appletree/config.py: Map.build_point, map_point, pdf_to_cdf", "appletree/randgen.py: uniform"]}
{"id": "C111", "title": "Mean yields of the NEST plugins are the published formulas", "statement": "For positive energy, field and density, and parameters in the range stated with each theorem, the plugins compute exactly the NEST v2 formulas written as functions of real numbers: the Thomas-Imel parameter, the total quanta and the charge and light yields of nuclear recoils, their chain run one after another, the charge yield of electronic recoils as two steps in energy whose heights and positions depend on the field, the exciton-ion ratio, and the widths of recombination (a bell curve for nuclear recoils, binomial variance plus a relative term). Consequences: with a negative field exponent a stronger field strictly raises the charge yield of nuclear recoils and lowers the light yield; the threshold factor is one half at zeta and grows with energy; the charge yield is cut at zero and nowhere else. Without a field map every event has the field of the parameter; with one, the field at its distance from the axis and its height, whatever the azimuth.", "quantifier": "all parameter values, fields, energies, keys and events in the stated ranges", "why_tests_cant": "Tests compare numbers at a few energies; the identity with the formula and the monotonicity hold on continuous ranges of ten parameters.", "anchors": ["appletree/plugins/nestv2.py: TotalQuanta, ThomasImelBox, QyNR, LyNR, OmegaNR", "appletree/plugins/detector.py: EField", "appletree/plugins/er_nestv2.py: ExcitonIonRatioER, QyER, OmegaER"]}
{"id": "C112", "title": "Quanta fluctuate with the stated mean and variance", "statement": "For any numbers drawn from jax with the mean and variance of a standard normal number, and binomial and Poisson numbers with the right mean: before it is cut at zero and rounded, the number of quanta of an electronic recoil has mean E/w and variance fano E/w; of n quanta n (1 - r)/(1 + ratio) become electrons on average and the others photons; the recombined fraction is a normal number with the given mean and width kept in [0, 1]; photons and electrons from yield maps have the mean yield (1 + t) E; ions and excitons of nuclear recoils have means in the given ratio and variances that are the Fano factors times them, from different random numbers; the quanta of NEST electronic recoils have mean nph + ne and variance fano times that, and on average the part alf of them are ions; the electrons have mean (1 - r) Ni and the computed variance before they are kept between 0 and Ni, which multiplied out is the charge yield times the energy unless the recombination probability had to be cut at zero. The cut at zero raises the mean: it is not E/w for small energies.", "quantifier": "all energies, parameters, keys, events and random numbers with these moments", "why_tests_cant": "Samples only determine means within statistical errors, and a wrong factor in a variance or a reused key is invisible in most of them.", "anchors": ["appletree/plugins/er_microphys.py: Quanta, IonizationER, RecombinationER, TrueRecombER", "appletree/plugins/lyqy.py: LightYield, NumberPhoton, ChargeYield, NumberElectron", "appletree/plugins/nestv2.py: TrueExcitonIonNR", "appletree/plugins/er_nestv2.py: MeanExcitonIonER, TrueExcitonIonER, TruePhotonElectronER", "appletree/randgen.py: truncate_normal, normal, binomial, poisson"]}
{"id": "C113", "title": "Samplers have the distributions that they are named after", "statement": "For the samplers of randgen.py, as functions of what jax.random draws: the hybrid binomial sampler is exactly binomial up to its threshold, that is, if the uniform numbers are independent then each count j of n trials has probability C(n, j) p^j (1 - p)^(n - j); above the threshold it rounds and clamps a number with mean exactly n p and variance n p (1 - p) up to 3/(50 n p (1 - p)) and 10^-12. By default the threshold is 128. The normal approximation has mean n p and variance n p (1 - p) before clamping. Without jax.random.binomial the exact sampler of numpyro is used below 5 expected successes and the normal approximation from there on. The Bernoulli sampler is 1 with the given probability and 0 otherwise. The gamma sampler has mean alpha/beta and variance alpha/beta^2, the skew normal one the mean and variance of the textbook, the negative binomial one mean n (1 - p)/p and variance n (1 - p)/p^2. A generalized Poisson number is the size of a family with lam (1 - eta) founders and eta children each; over m generations its mean is lam (1 - eta^(m+1)), which tends to lam. Exception: with few expected successes in many trials the hybrid sampler is not close to binomial. With 10000 trials of probability 10^-8 at least two successes result for every normal number between -2 and -3/2, in four of a hundred cases.", "quantifier": "all parameters in the natural range of each distribution, all keys, all events, any random numbers of jax with the stated moments", "why_tests_cant": "Goodness-of-fit tests on samples cover a few parameter values and see only large deviations; the claims are identities in the parameters.", "anchors": ["appletree/randgen.py: binomial_hybrid, binomial, gamma, normal, skewnormal, negative_binomial, generalized_poisson"]}
{"id": "C114", "title": "Simulated histograms are unbiased when normalised on the simulation, and biased otherwise", "statement": "Over random keys that give batches of independent events, a bin of simulate_hist with norm_type on_sim and add_eps_to_hist False has on average the rate times the mean efficiency of an event in that bin, whatever the batch size; its variance is that of one event times the squared rate over the batch size, and so it is for the total. Exceptions: (1) without the floor a bin is empty, and the log likelihood minus infinity, with the chance that none of the events adds to it; (2) with the floor (the default) the average is too high, by up to the rate times (10^-10 + mean efficiency) over the batch size, and by exactly this where no event can be; (3) with on_pdf a bin is a ratio of sums: its average is right if all events add the same to the bins, but in general it is not, and all bins are NaN with the chance that no event of the batch is in any bin; (4) the log likelihood of simulated histograms is on average at most that of the expected histogram.", "quantifier": "all binnings, batch sizes, rates, distributions of events with efficiencies between 0 and 1, and all data", "why_tests_cant": "Averages over the random numbers are seen in tests only up to statistical noise, which hides the biases of order one over the batch size.", "anchors": ["appletree/component.py: ComponentSim.simulate_hist, get_normalization, implement_binning", "appletree/likelihood.py: get_log_likelihood"]}
{"id": "C115", "title": "The shipped maps are there, have a value everywhere, and mean what the plugins take them for", "statement": "Every map file named by the defaults of the shipped plugins or by the configs of the shipped instructions is shipped, and as a Map gives a number at every position with any of the three methods. The corrections, the gas gain and the cut acceptances are 1, the biases 0, the field 23, the lifetime 12000 and the position resolution 0.1 everywhere, so that cS1 is S1, cS2 is S2 corrected for the drift alone, and the lifetime does not fluctuate. An event is accepted exactly if its S2 exceeds the threshold and at least three photons were detected; the parameters of the bands of the efficiencies (s1_eff_3f_sigma, s1_cut_acc_sigma, s2_cut_acc_sigma) have no influence. The inverse spectrum rises from 0.3 to 4 keV; the yields are zero up to 0.199 keV, positive from 0.219 keV on, and so for every energy of the spectrum. The smearings are positive and fall with the signal.", "quantifier": "all positions, methods, random numbers and parameters", "why_tests_cant": "The maps are evaluated at arbitrary real positions outside of and between their nodes; tests run them at a few random events.", "anchors": ["appletree/maps/*.json", "appletree/config.py: Map.build, build_point, build_regbin, SigmaMap.apply", "appletree/plugins/*.py"]}
{"id": "C116", "title": "Floating point rounding: counts are exact up to 2^24, then stop, and sums stay within bounds", "statement": "With additions rounded to nearest (24 bit significands, the float32 of jax, or 53 bits with x64): a bin whose weights are whole numbers that come to at most 2^p is exact, in whatever order it is summed. Above that counting stops: of n events of weight 1 a bin counts min(n, 2^p), and no bin with weights of at most 1 ever exceeds 2^p. For other weights the relative error of a bin with n events is at most (1+2^-p)^n - 1, that is at most 2n/2^p as long as n is at most 2^p. A histogram can depend on the order of its events (refuted: that it does not). The log likelihood, with logarithms of relative error c, summed in any order of depth k, is off by at most ((1+2^-p)^(k+2) (1+c) - 1) times the sum of d|log m| + m.", "quantifier": "all precisions, bin edges, events, weights, data, models and orders of summation", "why_tests_cant": "The loss of events begins at 16777217 events in one bin, and rounding errors depend on all weights and the order of summation; tests compare a few small histograms.", "anchors": ["appletree/hist.py: make_hist_irreg_bin_1d", "appletree/likelihood.py: Likelihood.get_log_likelihood"]}
{"id": "C117", "title": "A parameter changes only the likelihoods whose components read it, and otherwise only the prior", "statement": "In a context whose plugins read only the parameters they declare (takes_params, and the scalers of their maps), a likelihood gives the same value, or raises the same exception, and leaves the same key for any two sets of parameters that agree on what its own components read under the names of its aliases: their rates, the declared parameters of the plugins in their workflows and the scalers of their maps. log_posterior for two sets of parameters that agree on what all components read differs by the difference of the priors, for every number of repetitions. A parameter that no component reads changes a finite posterior by the difference of its own prior terms, and not at all if it is not free.", "quantifier": "all instructions, contexts, states of the process, plugins that declare what they read, parameters, keys, batch sizes and repetitions", "why_tests_cant": "A posterior that reacts to a parameter of another likelihood, or to one that nothing reads, gives plausible numbers and a biased fit; a test changes one parameter at one point of one context.", "anchors": ["appletree/context.py: Context.log_posterior", "appletree/likelihood.py: Likelihood.get_log_likelihood", "appletree/component.py: ComponentSim.compile", "appletree/config.py: SigmaMap.required_parameter"]}
{"id": "C118", "title": "In the rates a likelihood is concave, and it is best when it expects as many events as there are in the data", "statement": "Take a likelihood whose simulated plugins read no rate, a binned data set without negative entries, and one key. If the log likelihood is finite for two sets of parameters that differ only in rates, it is finite for every set of rates on the line between them and at least the mean of the two values, so no local maximum in the rates can be missed. Scaling all rates by one factor so that get_num_events_accepted equals the number of data events never lowers the log likelihood, and raises it unless the two numbers were already equal. For a single component whose rate is the number of accepted events (norm_type on_pdf) the best rate is exactly the number of data events, and no other rate reaches the same value.", "quantifier": "all likelihoods with any number of simulated and fixed components and either norm_type, data, keys, batch sizes, aliases and rates; and all contexts that build such likelihoods", "why_tests_cant": "Concavity and the place of a maximum are statements about all rates at once; a test evaluates the likelihood at a few of them, each under its own noise.", "anchors": ["appletree/likelihood.py: Likelihood.get_log_likelihood", "appletree/likelihood.py: Likelihood._simulate_model_hist", "appletree/component.py: Component.get_normalization", "appletree/likelihood.py: Likelihood.get_num_events_accepted"]}
{"id": "C119", "title": "Coarser bins add up finer ones, and never fit worse", "statement": "Leaving out inner edges of a binning in one dimension, or of a meshgrid in two, joins bins: the histogram of the same events is the one with all edges, added up over the bins that were joined. The entries of a row of a two-dimensional histogram add up to the entry of the one-dimensional histogram of the events inside the other axis. With the same key the model histogram of a likelihood whose components got the coarser bins is the sum over the joined bins of the finer one with the same total, provided the floor of implement_binning (add_eps_to_hist) is off or below every bin; and the log likelihood is then no further from that of a model equal to the data than with the finer bins. With the floor and empty bins this fails: joining two empty bins changes the expectation of a third.", "quantifier": "all edges and choices of inner edges, events, weights, components of both kinds and normalisations, keys, parameters and data", "why_tests_cant": "A test compares two chosen binnings of chosen events; a misplaced edge shows for events on it only, and the inequality between log likelihoods is about all models and data.", "anchors": ["appletree/hist.py: make_hist_irreg_bin_1d", "appletree/hist.py: make_hist_irreg_bin_2d", "appletree/hist.py: make_hist_mesh_grid", "appletree/component.py: Component.implement_binning", "appletree/likelihood.py: Likelihood.get_log_likelihood"]}
{"id": "C120", "title": "What the reports of the profiler say", "statement": "print_profile_summary lists every component once with the sum of the times of its plugins and their number, and its grand total is the sum over all plugins of all components. When every time is a number, its list of the slowest plugins has min(top_n, number of plugins) entries, numbered from one, from slow to fast, none of the plugins left out is slower than one that is shown, and equally slow plugins keep their order; a negative top_n leaves out that many of the fastest. compare_plugin_vs_full never fails once both profiles have been measured: it has one row for each simulated component, with the sum over its plugins, the time of the whole simulation, and the overhead p such that the sum is the time of the simulation times 1 + p/100, positive exactly when the plugins took longer; without a timed run it shows an overhead of zero for times that are NaN. The rows of print_worksheet are an order of execution: the needed plugins once each, with everything they depend on provided by rows above.", "quantifier": "all profiles, numbers of entries, contexts, clocks, plugins and registries", "why_tests_cant": "A test can look at the report of one profile; ties, negative numbers, missing keys and the order of all worksheets are about all of them.", "anchors": ["appletree/profiler.py: print_profile_summary", "appletree/profiler.py: compare_plugin_vs_full", "appletree/profiler.py: print_worksheet"]}
{"id": "C121", "title": "Binary search finds the bin", "statement": "jnp.searchsorted does not count edges but bisects: ceil(log2(n + 1)) halvings of the range 0..n. For edges in order (repeated and infinite ones included), any number of them and any sample (infinite and NaN included) it finds the number of edges below the sample (side left) or not above it (side right); so the histograms with irregular bins in one and two dimensions and those of jnp.histogramdd put every event into the bin that contains it, and curve interpolation and jnp.interp use the two reference points around the position. For edges in any other order, which set_binning accepts, a sample still ends between the two edges that are found, but an event that is inside two bins is counted in one of them only.", "quantifier": "all edges, numbers of edges, samples, weights and reference points", "why_tests_cant": "A test tries some numbers of edges and samples; an error by one in the number of halvings shows for particular numbers of edges and samples below the first edge only.", "anchors": ["appletree/hist.py: make_hist_irreg_bin_1d", "appletree/hist.py: make_hist_irreg_bin_2d", "appletree/hist.py: make_hist_mesh_grid", "appletree/interpolation.py: curve_interpolator", "appletree/interpolation.py: map_interpolator_linear_1d"]}
{"id": "C122", "title": "Which plugin of a module is used", "statement": "register_all(module) of a component registers the Plugin subclasses among the attributes of the module, imported ones included, in alphabetical order of their names: if it succeeds, a data name is afterwards provided by the class whose name is alphabetically last among the classes of the module that provide it, whatever the order of the definitions, and other data names keep their provider. The base class Plugin, which plugin files import, has no effect. A list or tuple of modules, at any depth, is registered one after the other. A failure is always a ValueError about a class of one of the modules that disagrees on a default with a registered class; that class stays registered. So the class that a file defines last is not necessarily the one that is used.", "quantifier": "all modules, attributes, orders of definition, nested lists and registries", "why_tests_cant": "A test registers given modules; that the choice depends on the names of classes alone, and on nothing else, is about all modules.", "anchors": ["appletree/component.py: ComponentSim.register_all", "appletree/component.py: ComponentSim.register"]}
{"id": "C123", "title": "The order of the two axes of a likelihood", "statement": "Writing bins_on, bins and the two clips of a two-dimensional meshgrid likelihood in the other order changes nothing but the orientation: construction fails with the same error or gives the same events with the two numbers exchanged and the transposed histogram of counts. A component from given data, or from the same simulated events, has the transposed histogram and the same errors; the log-likelihood, the expected number of events and the next key are equal. A simulated component does not get the same events for a given key, however: its plugins run in an order that depends on bins_on, each with the next key.", "quantifier": "all edges (also unsorted ones), events, configurations, components, keys, batch sizes and parameters", "why_tests_cant": "A test compares two orders for given data; that everything but the random numbers is invariant, errors included, is about all of them.", "anchors": ["appletree/likelihood.py: Likelihood.set_binning", "appletree/likelihood.py: Likelihood.get_log_likelihood", "appletree/hist.py: make_hist_mesh_grid", "appletree/component.py: Component.implement_binning", "appletree/component.py: ComponentSim.dependencies_simplify"]}
{"id": "C124", "title": "The expected number of events and the summary of a context", "statement": "Context.get_num_events_accepted returns the sum, over the likelihoods with binned data, of all entries of the model histogram (the bin-by-bin sum of the histograms of the components built from the instruction, aliases replaced), each simulated from a new key; likelihoods from literature are left out with one warning each. It fails only if one of these likelihoods does, with that error. With on_pdf everywhere a finite result is the sum of the rates whatever is simulated. Unlike log_posterior it does not add the fixed parameters. print_context_summary prints nothing and raises RuntimeError if the manager has a parameter that is not needed; otherwise it lists the likelihoods and components of the instruction in order, each component with the type of its class and its rate among its pars, and as data_rate the number of events of the file inside the clips and in a bin. The pars printed are the names of the component, not the aliases that the user gives.", "quantifier": "all instructions, parameter files, configurations, parameters, keys and batch sizes", "why_tests_cant": "A test checks one context; that the numbers belong to the instruction is about every context.", "anchors": ["appletree/context.py: Context.get_num_events_accepted", "appletree/context.py: Context.print_context_summary", "appletree/likelihood.py: Likelihood.get_num_events_accepted", "appletree/likelihood.py: Likelihood.print_likelihood_summary"]}
{"id": "C125", "title": "What a deduce that raises leaves behind", "statement": "A ComponentSim whose deduce raises keeps its compiled function: simulate, and simulate_hist unless force_no_eff was asked for, return what they did before. If a name cannot be deduced nothing else changes. If the likelihood name is taken (every second deduce), worksheet, needed_parameters, func_name and code are those that were asked for, and a following compile() makes exactly the function that compile() without the deduce would make, of the old workflow, or raises KeyError if another func_name was given. force_no_eff stays set: then simulate_hist of the unchanged function raises AssertionError.", "quantifier": "all components, states of the process, arguments of both deduces, configurations set and components compiled in between", "why_tests_cant": "A test sees one failing call; what is left in the object afterwards is a property of every state.", "anchors": ["appletree/component.py: ComponentSim.deduce", "appletree/component.py: ComponentSim.flush_source_code", "appletree/component.py: ComponentSim.compile"]}
{"id": "C126", "title": "Keys made from the clock", "statement": "get_key with a seed gives a key that depends on the seed alone; two seeds (of 64 bits) give the same key exactly if they differ by a multiple of 2^32, or, with x64 enabled, only if they are equal. Without a seed, two calls at least 1.25 microseconds apart give different keys if they are less than 2^32 microseconds (71.5 minutes) apart, so no key is made twice in a run shorter than that; with x64 enabled there is no limit. Exceptions: after exactly 2^32 microseconds the keys come again, and two calls within one microsecond have the same key.", "quantifier": "all seeds and all times from the first microsecond of 1970 until 2038, with the product rounded in double precision", "why_tests_cant": "A test cannot wait for all times, nor try all pairs of seeds.", "anchors": ["appletree/randgen.py: get_key", "appletree/context.py: Context.log_posterior", "appletree/context.py: Context.get_template"]}
{"id": "C127", "title": "The file that dump_lineage writes", "statement": "dump_lineage writes exactly one file. Lineages that say the same (equal up to the order of dictionary entries, at any depth) give files with the same contents, whatever was there before; lineages that differ anywhere in a constant, number, string, key or the order of a list give different contents, so comparing two dumped files decides whether the lineages say the same. Exceptions: a character outside the Basic Multilingual Plane has the same text as its two surrogates, and a dump that fails (lineage cannot be made, or json cannot write an array of a ConstantSet) has already erased the file that was there.", "quantifier": "all JSON objects with distinct keys of any size and depth, all previous files", "why_tests_cant": "Tests compare a few lineages; they cannot show that no two different lineages have the same text, nor that no order of entries matters.", "anchors": ["appletree/utils.py: dump_lineage", "appletree/utils.py: JSON_OPTIONS"]}
{"id": "C128", "title": "A map file means what its entries say", "statement": "Whatever map file a user writes: a table of points gives straight lines between its points and the end values outside; a table named pdf gives the inverse of its cumulative integral, with the middle of an interval at the probability up to its end; a grid with two or three axes, each linear or logarithmic as coordinate_type says for all axes or for each of them, returns at its nodes (equally spaced on linear axes, geometrically spaced on logarithmic axes) exactly the number at that place of the nested list. Files with another coordinate_type, with entries of the wrong kind, with a logarithmic axis of probabilities or with a non-positive bound, or with types for another number of axes are refused. Exception: grids with one axis, which are documented, are always refused when applied.", "quantifier": "all map files with any number of nodes and any bounds, all positions; methods IDW and LERP for points, LERP and NN for grids", "why_tests_cant": "Tests try the shipped maps, none of which has a logarithmic axis, a mixture of axes, or a pdf.", "anchors": ["appletree/config.py: Map.build", "appletree/config.py: Map.build_point", "appletree/config.py: Map.build_regbin", "appletree/interpolation.py"]}
{"id": "C129", "title": "A constructed context answers", "statement": "If the plugins of a constructed context do what they declare (given a key, the parameters they declare and one column per entry of depends_on, they return a key and one column of the same length per entry of provides) and every needed parameter has a value, then log_posterior raises nothing: for every key, batch size (also 0), number of repetitions and values of the parameters with a finite prior it returns a number. Without a LikelihoodLit that number is finite or -inf. Conversely, an answer requires the rate of every component of a Likelihood, under the name its aliases give it. So the name of a rate must not itself be an alias: an instruction that gives two components one rate by making the second rate an alias of the first is accepted, passes the sanity check, and raises at every evaluation.", "quantifier": "all instructions, configurations, plugins and histories of the process for which the context was constructed with sensible bins and unambiguous plugins; all keys, batch sizes, repetitions and parameter values", "why_tests_cant": "A fit evaluates the posterior millions of times at points no test visits; that none of them can raise follows only from the construction.", "anchors": ["appletree/context.py: Context.log_posterior", "appletree/likelihood.py: Likelihood.get_log_likelihood", "appletree/component.py: ComponentSim.simulate_hist", "appletree/component.py: Component.get_normalization"]}
{"id": "C130", "title": "The name of a data file selects how it is read, and saved code does what compile does", "statement": "load_data first looks for the file (RuntimeError if it is nowhere, whatever its name), then reads it with pandas.read_csv exactly if the path found ends in .csv (or is csv), with read_pickle exactly if it ends in .pkl (or is pkl), and otherwise raises ValueError, also for .CSV or .csv.gz. For a name with a suffix that is found as it is, under url_base or in the package, the suffix of the name decides. So every Poisson likelihood of a constructed context has read its data from a .csv or .pkl file. The text that save_code writes for a deduced component, executed later in any namespace, fails or succeeds as compile does and leaves a function that computes what simulate computes; other files stay. Exceptions: a file named csv is read from the working directory and refused under url_base; save_code of a component that was not deduced raises AttributeError after it has erased the file.", "quantifier": "all file systems, names, url_base values, contexts and deduced components", "why_tests_cant": "Tests load a handful of shipped files with ordinary names and never execute saved code.", "anchors": ["appletree/utils.py: load_data", "appletree/utils.py: get_file_path", "appletree/component.py: ComponentSim.save_code"]}
{"id": "C131", "title": "Reading parameters by name returns the values in the order asked for, or nothing", "statement": "get_parameter and indexing a Parameter object with a name, a list or a set of known names return one value for each name, in the order of the request; with one unknown name nothing is returned and get_parameter raises AssertionError, indexing KeyError; anything else is refused. After a valid set_parameter, reading the listed names gives what was written (in order if no name is listed twice; otherwise every occurrence reads the last value). Exception: a dictionary, which set_parameter and check_parameter_exist accept, makes get_parameter raise ValueError although all its names exist.", "quantifier": "all states, requests and assignments", "why_tests_cant": "All shapes of requests, duplicates and unknown names at every position.", "anchors": ["appletree/parameter.py: Parameter.get_parameter", "appletree/parameter.py: Parameter.__getitem__", "appletree/parameter.py: Parameter.check_parameter_exist"]}
{"id": "C132", "title": "Every parameter is drawn with random numbers of its own", "statement": "sample_prior draws the parameters one after the other from their priors, each with the next numbers of the random generator: one normal number with the given mean and width for norm, a uniform and a standard normal one for twohalfnorm (upper half if the first is below sigma_pos/(sigma_pos+sigma_neg)), one uniform number for uniform, one normal number with init_mean and init_std for free, none for fixed; the value is the point of allowed_range nearest to the number. sample_init does the same with one normal number around init_mean for everything that is not fixed. Nothing is drawn twice or skipped; so the value of a parameter does not depend on the numbers that the others were drawn with.", "quantifier": "all configurations from which can be drawn, all sequences of random numbers", "why_tests_cant": "A test sees numbers that look random; that no number is used for two parameters, or none is lost, needs the whole sequence for every configuration.", "anchors": ["appletree/parameter.py: Parameter.sample_prior", "appletree/parameter.py: Parameter.sample_init", "appletree/randgen.py: TwoHalfNorm.rvs"]}
{"id": "C133", "title": "A SigmaMap applied reads exactly the parameter it reported, and the files in their roles", "statement": "A SigmaMap that reported a parameter when the workflow was deduced, was built for its likelihood and is applied, with any other builds, deductions and settings of other configs in between, looks up that parameter and no other: without it the call raises KeyError; with value t it gives median + (upper - median) t for t >= 0 and median + (median - lower) t for t <= 0 of the three maps at the position. Map and SigmaMap build only if every file name is a string. Exception: a SigmaMap that needs no parameter gives its upper map, so a median file configured on its own under name_median is read and not used.", "quantifier": "all configurations, likelihoods, histories of builds and settings, contents of map files, parameters and positions", "why_tests_cant": "Depends on what happened to the shared configuration between deduction, compilation and call.", "anchors": ["appletree/config.py: SigmaMap.apply", "appletree/config.py: SigmaMap.build", "appletree/config.py: SigmaMap.required_parameter", "appletree/config.py: Map.build"]}
{"id": "C134", "title": "from_backend opens the file it is given, or refuses", "statement": "from_backend(name) makes a context only of the file that has this name itself (absolute, or relative to the working directory): its instruct and its chain then come from this one file, whatever backend_h5 the instruct in it names, so a renamed file stays usable and the chain of another file is never shown. It succeeds exactly if a fit in the file has come to its end, the constructor accepts the instruct and the context has as many fitted parameters as the file; an unfinished fit is a KeyError, another number of parameters a ValueError. Exceptions: a file that get_file_path finds elsewhere (under url_base, in the package, ...) is read, a context is made, and then a RuntimeError is raised because the backend is opened under the bare name; and the names of the fitted parameters are not compared with those in the file, so after a change of the par_config file the samples of one parameter can be shown as those of another.", "quantifier": "all file systems, names, caches, contents of files and contexts made of them", "why_tests_cant": "Tests open a file in the working directory that was written just before; the claim is about any place of files and any later change of the files the instruct refers to.", "anchors": ["appletree/context.py: Context.from_backend", "appletree/context.py: Context.pre_fitting", "appletree/utils.py: get_file_path"]}
{"id": "C135", "title": "The order of the axes of a map does not matter, nor an axis along which nothing changes", "statement": "Two map files that hold the same numbers with the axes (bounds, scales, number of nodes, nested list) in another order give the same value, or both raise, at every position given in the corresponding order: for maps of two and three axes, linear and logarithmic axes in any mixture, all three methods, inside and outside of the grid. A map of three axes whose numbers do not change along one of them gives, at every value of that coordinate, what the map of the other two axes gives, for LERP and NN. For IDW this is false: the distance along the idle axis changes the weights, so a map extended by an axis without any dependence has other values.", "quantifier": "all map files with two or three regular axes, methods and positions", "why_tests_cant": "A test compares a few positions of one map; the claim is about all maps, positions outside of the grid and mixtures of scales.", "anchors": ["appletree/config.py: Map.map_regbin", "appletree/config.py: Map.build_regbin", "appletree/interpolation.py: map_interpolator_regular_binning_2d", "appletree/interpolation.py: map_interpolator_regular_binning_3d", "appletree/interpolation.py: map_interpolator_regular_binning_bilinear_2d", "appletree/interpolation.py: map_interpolator_regular_binning_trilinear_3d"]}
{"id": "C136", "title": "What of a data file matters", "statement": "The likelihood made from a data file depends only on the set of its events, counted with multiplicity, and on the columns named in bins_on. Files with the same events in another order give the same bins and the same data_hist, or the same refusal (equiprob bins: if GOFevaluation does not look at the order). Further columns, and the order of the columns, change nothing. Events outside the clip may be left out of the file. With bins that are not made from the data (meshgrid, irreg), the histogram of two files put together is the entrywise sum of the two histograms. A fixed component does not depend on the order of the events of its file.", "quantifier": "all configs, files, column orders, permutations of the events, and clips", "why_tests_cant": "Tests use one file; the claim is about all rearrangements of all files.", "anchors": ["appletree/likelihood.py: Likelihood.__init__", "appletree/likelihood.py: Likelihood.set_binning", "appletree/likelihood.py: Likelihood._make_data_hist", "appletree/component.py: ComponentFixed.deduce", "appletree/component.py: ComponentFixed.simulate_hist"]}
{"id": "C137", "title": "What of the simulated events matters for the histogram", "statement": "simulate_hist depends only on the simulated events and their efficiencies: not on the order of the events (with any normalisation, with or without the floor). The histogram of two batches put together is the entrywise sum. Without the floor of implement_binning (add_eps_to_hist), events of efficiency zero may be removed, as multiple_simulations does with apply_eff, and nothing changes; and if the histogram is normalised on_pdf and its sum is not zero, multiplying all efficiencies with one number changes nothing. With the floor, removing events of efficiency zero does change the histogram, because the floor is the mean of the efficiencies.", "quantifier": "all binnings with ordered edges, events, efficiencies, parameters, and permutations", "why_tests_cant": "Tests use one simulation; the claim is about all rearrangements and all sets of rejected events.", "anchors": ["appletree/component.py: Component.implement_binning", "appletree/component.py: ComponentSim.simulate_hist", "appletree/component.py: ComponentSim.multiple_simulations", "appletree/hist.py: make_hist_irreg_bin_1d", "appletree/hist.py: make_hist_irreg_bin_2d", "appletree/hist.py: make_hist_mesh_grid"]}
