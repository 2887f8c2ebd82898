{
 "claims": [
  {
   "property": "C01",
   "status": "proved",
   "theorems": [
    "C01_no_undefined_variable",
    "C01_simulation_completes",
    "C01_same_class_name_refuted"
   ],
   "note": "For registries reachable by any history of register calls whose classes have distinct names; a witness shows that two classes of the same name break it."
  },
  {
   "property": "C02",
   "status": "proved",
   "theorems": [
    "C02_exactly_the_needed_plugins"
   ],
   "note": "Same hypothesis on class names."
  },
  {
   "property": "C03",
   "status": "proved",
   "theorems": [
    "C03_simulation_returns_graph_values",
    "C03_graph_values_unique",
    "C03_partly_overridden_refuted"
   ],
   "note": "Positive statement under the consistency condition of the property, uniqueness of the graph values, and a witness for the partly overridden plugin."
  },
  {
   "property": "C04",
   "status": "proved",
   "theorems": [
    "C04_fails_iff_provider_missing",
    "C04_cyclic_never_returns"
   ],
   "note": "Recursion is bounded by a limit parameter; the limit needed is the number of registered names plus two."
  },
  {
   "property": "C05",
   "status": "proved",
   "theorems": [
    "C05_needed_parameters_exact"
   ],
   "note": "Defaults of common configs agree by C07; plugin config tables are well formed by C30."
  },
  {
   "property": "C06",
   "status": "proved",
   "theorems": [
    "C06_efficiency_last",
    "C06_returned_names",
    "C06_twice_refuted"
   ],
   "note": "The failure for a doubled request is the theorem C06_twice_refuted."
  },
  {
   "property": "C07",
   "status": "proved",
   "theorems": [
    "C07_registered_defaults_agree",
    "C07_conflict_detected",
    "C07_not_atomic_refuted"
   ],
   "note": "Non-atomicity is the witness C07_not_atomic_refuted."
  },
  {
   "property": "C08",
   "status": "proved",
   "theorems": [
    "C08_last_registration_wins",
    "C08_single_registration_frame"
   ],
   "note": ""
  },
  {
   "property": "C09",
   "status": "proved",
   "theorems": [
    "C09_failure_changes_nothing",
    "C09_fails_exactly",
    "C09_success",
    "C09_names_distinct",
    "C09_literature_one"
   ],
   "note": "Component construction is an arbitrary outcome; distinct names over all histories; LikelihoodLit holds at most one component."
  },
  {
   "property": "C10",
   "status": "proved",
   "theorems": [
    "C10_second_deduction_fails",
    "C10_failure_is_runtime_error",
    "C10_first_deduction_succeeds",
    "C10_after_clear"
   ],
   "note": "Over all histories of deduce, compile, clear_cache and set_global_config."
  },
  {
   "property": "C11",
   "status": "proved",
   "theorems": [
    "C11_length",
    "C11_entry"
   ],
   "note": "Edges may repeat or be infinite; samples may be NaN."
  },
  {
   "property": "C12",
   "status": "proved",
   "theorems": [
    "C12_total",
    "C12_permutation",
    "C12_additive"
   ],
   "note": ""
  },
  {
   "property": "C13",
   "status": "proved",
   "theorems": [
    "C13_entry",
    "C13_shape",
    "C13_rows"
   ],
   "note": "For an arbitrary result of the out-of-range row lookup."
  },
  {
   "property": "C14",
   "status": "proved",
   "theorems": [
    "C14_component_total",
    "C14_component_total_nonzero",
    "C14_fixed_total",
    "C14_model_total",
    "C14_model_total_floored",
    "C14_empty_bins_refuted"
   ],
   "note": "A finite total is always the rate(s); finite whenever the unnormalised total is non-zero, and always with the floor. Without the floor an empty set of bins gives NaN (C14_empty_bins_refuted). Rounding is not modelled."
  },
  {
   "property": "C15",
   "status": "proved",
   "theorems": [
    "C15_floor",
    "C15_finite_likelihood",
    "C15_empty_sample_refuted"
   ],
   "note": "For samples that are not empty; an empty sample makes every bin NaN (C15_empty_sample_refuted)."
  },
  {
   "property": "C16",
   "status": "proved",
   "theorems": [
    "C16_cases",
    "C16_never_nan"
   ],
   "note": ""
  },
  {
   "property": "C17",
   "status": "proved",
   "theorems": [
    "C17_best",
    "C17_best_is_data",
    "C17_scale",
    "C17_likelihood_bounded"
   ],
   "note": "Including data bins with zero counts."
  },
  {
   "property": "C18",
   "status": "proved",
   "theorems": [
    "C18_pure",
    "C18_renames",
    "C18_moves",
    "C18_untouched",
    "C18_twice",
    "C18_chain_refuted"
   ],
   "note": "Chains of aliases break idempotence (C18_chain_refuted)."
  },
  {
   "property": "C19",
   "status": "proved",
   "theorems": [
    "C19_sufficient",
    "C19_exact",
    "C19_chain_refuted",
    "C19_alias_needed_refuted"
   ],
   "note": "Failures as witnesses C19_chain_refuted and C19_alias_needed_refuted."
  },
  {
   "property": "C20",
   "status": "proved",
   "theorems": [
    "C20_sum",
    "C20_succeeds",
    "C20_order",
    "C20_sim_order_refuted"
   ],
   "note": "The order of two simulated components does matter (C20_sim_order_refuted)."
  },
  {
   "property": "C21",
   "status": "proved",
   "theorems": [
    "C21_minus_infinity",
    "C21_value",
    "C21_fixed_no_influence",
    "C21_order",
    "C21_uniform_support_refuted",
    "C21_nan_accepted_refuted"
   ],
   "note": "Witnesses: a uniform prior is not enforced (C21_uniform_support_refuted) and NaN is accepted (C21_nan_accepted_refuted). The conversion of errors to widths is an arbitrary function."
  },
  {
   "property": "C22",
   "status": "proved",
   "theorems": [
    "C22_sample_prior",
    "C22_sample_init",
    "C22_no_parameter_added",
    "C22_construction",
    "C22_start_has_finite_prior",
    "C22_unknown_type_refuted",
    "C22_reclassified_refuted"
   ],
   "note": "The random numbers are an arbitrary stream of finite numbers. Witnesses for unknown prior types and for re-classified parameters."
  },
  {
   "property": "C23",
   "status": "proved",
   "theorems": [
    "C23_assigns",
    "C23_otherwise_nothing",
    "C23_read_back"
   ],
   "note": ""
  },
  {
   "property": "C24",
   "status": "proved",
   "theorems": [
    "C24_lists_free_parameters",
    "C24_increasing",
    "C24_configuration_order",
    "C24_round_trip",
    "C24_order_is_total"
   ],
   "note": "Over all reachable states of a Parameter object."
  },
  {
   "property": "C25",
   "status": "proved",
   "theorems": [
    "C25_frame",
    "C25_unknown",
    "C25_outside",
    "C25_prior_not_finite",
    "C25_value",
    "C25_repeated",
    "C25_succeeds",
    "C25_never_nan"
   ],
   "note": "For arbitrary likelihood behaviour; with the histogram likelihoods of the model the result is never NaN or +inf. The emcee sampler calling it is not modelled."
  },
  {
   "property": "C26",
   "status": "proved",
   "theorems": [
    "C26_explicit_wins",
    "C26_explicit_wins_map",
    "C26_default_sticky",
    "C26_missing",
    "C26_build_keeps"
   ],
   "note": "Over all histories of builds, required-parameter lookups and set_global_config of other names. C26_order_matters shows that which default wins depends on construction order."
  },
  {
   "property": "C27",
   "status": "proved",
   "theorems": [
    "C27_own_entry",
    "C27_missing_entry",
    "C27_isolation"
   ],
   "note": "Non-interference for every sequence of builds of all four config kinds."
  },
  {
   "property": "C28",
   "status": "proved",
   "theorems": [
    "C28_used_not_reported",
    "C28_unused_reported",
    "C28_reported_is_set",
    "C28_set_too_late_refuted"
   ],
   "note": "Both directions over all histories; the value set too late is the witness C28_set_too_late_refuted."
  },
  {
   "property": "C29",
   "status": "proved",
   "theorems": [
    "C29_numbers_and_lists",
    "C29_strings",
    "C29_tables",
    "C29_others_untouched",
    "C29_failure",
    "C29_unsupported"
   ],
   "note": "url_base itself must not be among the keys for the string statements (it changes later lookups)."
  },
  {
   "property": "C30",
   "status": "proved",
   "theorems": [
    "C30_success",
    "C30_failure",
    "C30_hierarchy"
   ],
   "note": "Including every class hierarchy built by takes_config."
  },
  {
   "property": "C31",
   "status": "proved",
   "theorems": [
    "C31_values",
    "C31_static",
    "C31_straight",
    "C31_monotone",
    "C31_between",
    "C31_continuous"
   ],
   "note": "Real numbers. Elementwise on one position."
  },
  {
   "property": "C32",
   "status": "proved",
   "theorems": [
    "C32_which",
    "C32_reported_is_read",
    "C32_changed_between_refuted"
   ],
   "note": "C32_changed_between_refuted: the built map re-reads the configuration at call time."
  },
  {
   "property": "C33",
   "status": "proved",
   "theorems": [
    "C33_linear",
    "C33_covers",
    "C33_nodes",
    "C33_bounded",
    "C33_monotone",
    "C33_continuous"
   ],
   "note": "Real numbers. jnp.interp modelled from its source."
  },
  {
   "property": "C34",
   "status": "proved",
   "theorems": [
    "C34_bilinear_nodes",
    "C34_trilinear_nodes",
    "C34_bilinear_reproduces",
    "C34_trilinear_reproduces",
    "C34_bilinear_bounded",
    "C34_trilinear_bounded",
    "C34_bilinear_clamps",
    "C34_trilinear_clamps",
    "C34_in_range",
    "C34_bilinear_monotone"
   ],
   "note": "Real numbers; at least two nodes per axis."
  },
  {
   "property": "C35",
   "status": "proved",
   "theorems": [
    "C35_2d",
    "C35_3d",
    "C35_average",
    "C35_bounded",
    "C35_bounded_3d",
    "C35_knn",
    "C35_knn_too_many"
   ],
   "note": "Real numbers. Outside the upper bound the corners of the cell lie outside the array; the bound then rests on the index clamping of jax, which is modelled."
  },
  {
   "property": "C36",
   "status": "proved",
   "theorems": [
    "C36_1d",
    "C36_2d",
    "C36_3d",
    "C36_nodes"
   ],
   "note": "Real numbers."
  },
  {
   "property": "C37",
   "status": "proved",
   "theorems": [
    "C37_cdf",
    "C37_half_bin_low",
    "C37_quantile_refuted",
    "C37_sample_range"
   ],
   "note": "The conversion is a distribution function, but pairs midpoints with the value at the end of the interval: C37_half_bin_low, C37_quantile_refuted."
  },
  {
   "property": "C38",
   "status": "proved",
   "theorems": [
    "C38_coordinates",
    "C38_rejected",
    "C38_accepted",
    "C38_lerp_nodes",
    "C38_nn_nodes"
   ],
   "note": "Real numbers."
  },
  {
   "property": "C39",
   "status": "proved",
   "theorems": [
    "C39_hybrid_range",
    "C39_hybrid_edges",
    "C39_hybrid_exact",
    "C39_range",
    "C39_normal_approximation"
   ],
   "note": "p finite. What jax.random draws is arbitrary; the range of jax.random.binomial itself is assumed (law_binom)."
  },
  {
   "property": "C40",
   "status": "proved",
   "theorems": [
    "C40_samplers",
    "C40_programs",
    "C40_twohalfnorm_refuted"
   ],
   "note": "Keys are nodes of the splitting tree; C40_twohalfnorm_refuted shows the violation."
  },
  {
   "property": "C41",
   "status": "proved",
   "theorems": [
    "C41_defined",
    "C41_unimodal",
    "C41_mode",
    "C41_continuous",
    "C41_symmetric",
    "C41_samples",
    "C41_python_scalars_refuted"
   ],
   "note": "The widths given as Python numbers without size break sampling (C41_python_scalars_refuted); normalisation of the density is not proved."
  },
  {
   "property": "C42",
   "status": "proved",
   "theorems": [
    "C42_chain"
   ],
   "note": ""
  },
  {
   "property": "C43",
   "status": "proved",
   "theorems": [
    "C43_nr",
    "C43_nr_refuted",
    "C43_er"
   ],
   "note": "Nuclear recoils need room for the ions (mean excitons non-negative): without it C43_nr_refuted."
  },
  {
   "property": "C44",
   "status": "proved",
   "theorems": [
    "C44_probability",
    "C44_product",
    "C44_clip"
   ],
   "note": ""
  },
  {
   "property": "C45",
   "status": "proved",
   "theorems": [
    "C45_precedence",
    "C45_join",
    "C45_idempotent",
    "C45_no_effect",
    "C45_url_base_must_exist",
    "C45_bad_url_base"
   ],
   "note": "The file system, package data and database are an arbitrary environment."
  },
  {
   "property": "C46",
   "status": "proved",
   "theorems": [
    "C46_superfluous",
    "C46_missing_refuted"
   ],
   "note": "The claim itself is false: C46_missing_refuted. What the check does is C46_superfluous."
  },
  {
   "property": "C47",
   "status": "proved",
   "theorems": [
    "C47_copies",
    "C47_fails",
    "C47_chain_refuted",
    "C47_order_refuted"
   ],
   "note": "When no copied name is also a source. The two failures otherwise are C47_chain_refuted and C47_order_refuted."
  },
  {
   "property": "C48",
   "status": "proved",
   "theorems": [
    "C48_best",
    "C48_first_chain_for_ever",
    "C48_stale_refuted",
    "C48_continue_without_backend_refuted"
   ],
   "note": "The first read is right (C48_best); afterwards the claim is false: C48_first_chain_for_ever, C48_stale_refuted."
  },
  {
   "property": "C49",
   "status": "proved",
   "theorems": [
    "C49_restore",
    "C49_name_error",
    "C49_flag_refuted",
    "C49_character_refuted",
    "C49_order_refuted",
    "C49_text_restored",
    "C49_text_name_error",
    "C49_text_characters",
    "C49_text_string",
    "C49_text_shipped_refuted",
    "C49_parameters",
    "C49_parameters_order_refuted"
   ],
   "note": "C49_restore and the others of PropContext.v: text as tokens. C49_text_*: the text json.dumps writes with indentation, escapes and digits, and a reader of characters (ModelText.v); a number is its repr, which Python is trusted to read back. C49_parameters: the order of the likelihoods does not matter for the parameters unless a copied parameter is copied again (C49_parameters_order_refuted)."
  },
  {
   "property": "C50",
   "status": "proved",
   "theorems": [
    "C50_two_decimals",
    "C50_above_one",
    "C50_not_positive",
    "C50_small_refuted",
    "C50_one_refuted",
    "C50_unambiguous"
   ],
   "note": "The claim is false below 0.1 and at 1: C50_small_refuted, C50_one_refuted. Exact product with 100 (no rounding)."
  },
  {
   "property": "C51",
   "status": "proved",
   "theorems": [
    "C51_kept",
    "C51_plain_name",
    "C51_added",
    "C51_when",
    "C51_imported_refuted",
    "C51_two_names_refuted",
    "C51_force",
    "C51_dotted_refuted",
    "C51_failure_refuted"
   ],
   "note": "C51_dotted_refuted: silent overwriting of a module attribute; C51_imported_refuted and C51_two_names_refuted: harmless modules that are refused; C51_failure_refuted: a refused module leaves classes behind."
  },
  {
   "property": "C52",
   "status": "proved",
   "theorems": [
    "C52_concatenates",
    "C52_zero_rejected"
   ],
   "note": ""
  },
  {
   "property": "C53",
   "status": "proved",
   "theorems": [
    "C53_entry",
    "C53_entry_2d",
    "C53_length",
    "C53_binnings_agree_refuted"
   ],
   "note": "C53_binnings_agree_refuted is the disagreement with the irregular binning."
  },
  {
   "property": "C54",
   "status": "proved",
   "theorems": [
    "C54_covers",
    "C54_exact",
    "C54_chain_refuted"
   ],
   "note": "C54_chain_refuted shows the need of the disjointness condition for exactness."
  },
  {
   "property": "C55",
   "status": "proved",
   "theorems": [
    "C55_never_applies_refuted",
    "C55_scalar_bounds"
   ],
   "note": "The claim is false: C55_never_applies_refuted."
  },
  {
   "property": "C56",
   "status": "proved",
   "theorems": [
    "C56_log_point",
    "C56_log_point_refuted"
   ],
   "note": "The claim is false for log_point: C56_log_point, C56_log_point_refuted; true for point: C33_nodes."
  },
  {
   "property": "C57",
   "status": "proved",
   "theorems": [
    "C57_bilinear_continuous",
    "C57_trilinear_continuous",
    "C57_idw_jumps_refuted"
   ],
   "note": "LERP; false for IDW: C57_idw_jumps_refuted."
  },
  {
   "property": "C58",
   "status": "proved",
   "theorems": [
    "C58_intended",
    "C58_gap",
    "C58_equal_widths",
    "C58_every_value_refuted"
   ],
   "note": "The claim is false: C58_gap, C58_every_value_refuted. Rests on jax computing normal numbers from the uniform numbers of the same key (same_stream)."
  },
  {
   "property": "C59",
   "status": "proved",
   "theorems": [
    "C59_negative_binomial",
    "C59_stopped",
    "C59_generalized_poisson",
    "C59_eta_zero"
   ],
   "note": ""
  },
  {
   "property": "C60",
   "status": "proved",
   "theorems": [
    "C60_uniform",
    "C60_truncate_normal",
    "C60_mass_at_the_bound"
   ],
   "note": "Real numbers, no rounding."
  },
  {
   "property": "C61",
   "status": "proved",
   "theorems": [
    "C61_value",
    "C61_probability",
    "C61_width",
    "C61_fraction"
   ],
   "note": ""
  },
  {
   "property": "C62",
   "status": "proved",
   "theorems": [
    "C62_photons",
    "C62_photoelectrons",
    "C62_drift",
    "C62_electrons",
    "C62_s2",
    "C62_g2_saturates",
    "C62_g2_above_gain_refuted"
   ],
   "note": "Under g2 <= gas gain; otherwise C62_g2_saturates, C62_g2_above_gain_refuted."
  },
  {
   "property": "C63",
   "status": "proved",
   "theorems": [
    "C63_cylinder",
    "C63_energy",
    "C63_lines"
   ],
   "note": "Real numbers, no rounding."
  },
  {
   "property": "C64",
   "status": "proved",
   "theorems": [
    "C64_density_ignored",
    "C64_nr_density_matters"
   ],
   "note": "The claim is false for electronic recoils: C64_density_ignored."
  },
  {
   "property": "C65",
   "status": "proved",
   "theorems": [
    "C65_yields",
    "C65_validity",
    "C65_exciton_ion",
    "C65_er",
    "C65_nr",
    "C65_nr_zero_energy"
   ],
   "note": ""
  },
  {
   "property": "C66",
   "status": "proved",
   "theorems": [
    "C66_moments"
   ],
   "note": "Stated for any finitely supported distribution with the moments of two independent normal numbers; such a distribution is given."
  },
  {
   "property": "C67",
   "status": "proved",
   "theorems": [
    "C67_no_skewness",
    "C67_exceeds_refuted"
   ],
   "note": "True without skewness; false in general: C67_exceeds_refuted."
  },
  {
   "property": "C68",
   "status": "proved",
   "theorems": [
    "C68_chains",
    "C68_mono_refuted"
   ],
   "note": "C68_mono_refuted for the exception."
  },
  {
   "property": "C69",
   "status": "proved",
   "theorems": [
    "C69_sign"
   ],
   "note": ""
  },
  {
   "property": "C70",
   "status": "proved",
   "theorems": [
    "C70_data",
    "C70_drawn",
    "C70_plugins"
   ],
   "note": "Labels and styles are not modelled."
  },
  {
   "property": "C71",
   "status": "proved",
   "theorems": [
    "C71_instances",
    "C71_graph_values",
    "C71_completes",
    "C71_set_value_is_used",
    "C71_one_value_per_name",
    "C71_failed_build",
    "C71_imported_class_refuted",
    "C71_unpublished_refuted"
   ],
   "note": "The first clause needs the registered classes to be those of appletree.plugins: C71_imported_class_refuted (a different class of that name is run), C71_unpublished_refuted (ImportError). Config clauses for Constant and ConstantSet; files of maps are in C26-C28."
  },
  {
   "property": "C72",
   "status": "proved",
   "theorems": [
    "C72_deduce_again_refuted",
    "C72_compile_alone",
    "C72_needed_parameters_stale_refuted",
    "C72_new_map_file_refuted",
    "C72_clear_set_build",
    "C72_set_then_clear_refuted",
    "C72_compile_after_clear"
   ],
   "note": "The claim is false: C72_deduce_again_refuted (deduce never succeeds), C72_set_then_clear_refuted, C72_needed_parameters_stale_refuted, C72_new_map_file_refuted. Proved: compile() alone takes plain values (C72_compile_alone); clear_cache, set_config, deduce, compile in this order works (C72_clear_set_build)."
  },
  {
   "property": "C73",
   "status": "proved",
   "theorems": [
    "C73_lineage_after_build",
    "C73_lineage_ignores_set_config",
    "C73_shared_class_refuted"
   ],
   "note": "Holds right after compile (C73_lineage_after_build); false once another likelihood is compiled: C73_shared_class_refuted. Classes are found under their own names."
  },
  {
   "property": "C74",
   "status": "proved",
   "theorems": [
    "C74_exact",
    "C74_key_error",
    "C74_shown_is_used",
    "C74_other_nodep_refuted"
   ],
   "note": "C74_other_nodep_refuted: the no-dependency name is fixed to batch_size. Classes are compared by name."
  },
  {
   "property": "C75",
   "status": "proved",
   "theorems": [
    "C75_files",
    "C75_undocumented",
    "C75_conflict",
    "C75_no_likelihood_refuted",
    "C75_default_sticks_refuted"
   ],
   "note": "C75_no_likelihood_refuted and C75_default_sticks_refuted are the failures without a likelihood name. Contents of the files: C33-C37, C55-C57."
  },
  {
   "property": "C76",
   "status": "proved",
   "theorems": [
    "C76_histogram",
    "C76_rows",
    "C76_on_sim",
    "C76_total",
    "C76_no_gaps",
    "C76_total_floored",
    "C76_same_histogram",
    "C76_same_histogram_fixed",
    "C76_no_efficiency_refuted",
    "C76_edge_refuted",
    "C76_gap_refuted",
    "C76_floor_refuted"
   ],
   "note": "C76_edge_refuted, C76_gap_refuted, C76_floor_refuted and C76_no_efficiency_refuted are the failures named in the statement."
  },
  {
   "property": "C77",
   "status": "proved",
   "theorems": [
    "C77_parts",
    "C77_total",
    "C77_same_histogram",
    "C77_no_component_refuted"
   ],
   "note": "C77_no_component_refuted is the case without components. The number of columns of the components is taken to be equal."
  },
  {
   "property": "C78",
   "status": "proved",
   "theorems": [
    "C78_twohalf",
    "C78_norm",
    "C78_nan_yield",
    "C78_width_refused",
    "C78_scale_silent",
    "C78_mismatch",
    "C78_one_event",
    "C78_never_nan",
    "C78_below_infinity",
    "C78_energies_ignored",
    "C78_best",
    "C78_best_norm",
    "C78_refused"
   ],
   "note": "C78_scale_silent and the last part of C78_refused are the exceptions named in the statement. C78_best is about the value given by C78_twohalf."
  },
  {
   "property": "C79",
   "status": "proved",
   "theorems": [
    "C79_value",
    "C79_outside",
    "C79_defined",
    "C79_row_order",
    "C79_width_refused",
    "C79_zero_efficiency_refuted",
    "C79_shipped_band_refuted"
   ],
   "note": "C79_zero_efficiency_refuted and C79_shipped_band_refuted are the failures named in the statement."
  },
  {
   "property": "C80",
   "status": "proved",
   "theorems": [
    "C80_data",
    "C80_counts",
    "C80_total",
    "C80_shape",
    "C80_fixed",
    "C80_equiprob_1d",
    "C80_equiprob_2d",
    "C80_meshgrid_1d",
    "C80_meshgrid_2d",
    "C80_clip_ignored_refuted",
    "C80_upper_limit_refuted"
   ],
   "note": "C80_clip_ignored_refuted and C80_upper_limit_refuted are the failures named in the statement. Rounding of np.linspace is not modelled."
  },
  {
   "property": "C81",
   "status": "proved",
   "theorems": [
    "C81_checked",
    "C81_bins",
    "C81_accepted",
    "C81_exceptions",
    "C81_exceptions_binning",
    "C81_irreg_number_refuted",
    "C81_clip_needed"
   ],
   "note": "C81_irreg_number_refuted and C81_clip_needed are the exceptions named in the statement. The keys data_file_name, bins_type, bins_on and bins are taken to be present."
  },
  {
   "property": "C82",
   "status": "proved",
   "theorems": [
    "C82_posterior",
    "C82_repeated"
   ],
   "note": "Files, plugins and component classes are arbitrary functions. Literature likelihoods (LikelihoodLit) are included; their value is worked out in C88."
  },
  {
   "property": "C83",
   "status": "proved",
   "theorems": [
    "C83_state",
    "C83_after_clear",
    "C83_name_taken",
    "C83_one_simulated",
    "C83_failed_first_refuted",
    "C83_configs_stay_refuted"
   ],
   "note": "C83_failed_first_refuted and C83_configs_stay_refuted are the failures named in the statement."
  },
  {
   "property": "C84",
   "status": "proved",
   "theorems": [
    "C84_s1",
    "C84_s2",
    "C84_position",
    "C84_area",
    "C84_area_sign_refuted"
   ],
   "note": "Averages are over finite distributions of the draws of jax.random, only their means being used. C84_area_sign_refuted is the failure named in the statement."
  },
  {
   "property": "C85",
   "status": "proved",
   "theorems": [
    "C85_builds",
    "C85_proper",
    "C85_shared_key_refuted"
   ],
   "note": "C85_shared_key_refuted is the failure named in the statement."
  },
  {
   "property": "C86",
   "status": "proved",
   "theorems": [
    "C86_registration",
    "C86_simulates",
    "C86_unknown_name",
    "C86_default_configuration"
   ],
   "note": "The plugin classes enter as data (name, provides, depends_on, parameters, configs, argument names), generated from the source by script and listed with their lines in ModelShipped.v."
  },
  {
   "property": "C87",
   "status": "proved",
   "theorems": [
    "C87_needed",
    "C87_found",
    "C87_checked",
    "C87_refused",
    "C87_no_file"
   ],
   "note": "Scalers are read off the configuration after construction; a later set_config can change them."
  },
  {
   "property": "C88",
   "status": "proved",
   "theorems": [
    "C88_args",
    "C88_twohalf",
    "C88_norm",
    "C88_band",
    "C88_several_refused",
    "C88_without_component",
    "C88_batch"
   ],
   "note": "Composes C82 (the component in the context) with C78 and C79 (the densities). C88_twohalf, C88_norm and C88_band start from the value that C82_posterior gives for such a likelihood."
  },
  {
   "property": "C89",
   "status": "proved",
   "theorems": [
    "C89_settable",
    "C89_configured",
    "C89_constructs"
   ],
   "note": "Sufficient conditions for the constructor (C89_constructs) and an exact condition for set_config (C89_settable). The conditions on configs rest on C85; the one on one simulated component per likelihood is the reported defect of C83."
  },
  {
   "property": "C90",
   "status": "proved",
   "theorems": [
    "C90_constructs"
   ],
   "note": "C90_constructs rests on C87 and C89; the shipped data are in ModelShipped.v and ModelInstruct.v."
  },
  {
   "property": "C91",
   "status": "proved",
   "theorems": [
    "C91_files",
    "C91_start",
    "C91_context",
    "C91_er_nestv2_refuted"
   ],
   "note": "The exception is C91_er_nestv2_refuted, with a concrete context in C91_er_nestv2_case. The root finder errors_to_two_half_norm_sigmas is an assumption (solvable) on the errors in the file."
  },
  {
   "property": "C92",
   "status": "proved",
   "theorems": [
    "C92_component",
    "C92_times",
    "C92_no_runs",
    "C92_keys",
    "C92_shared_name_refuted",
    "C92_later_registration_refuted",
    "C92_set_config_refuted",
    "C92_slash_refuted",
    "C92_statistics",
    "C92_too_few",
    "C92_context",
    "C92_not_deduced",
    "C92_full"
   ],
   "note": "The exceptions are C92_shared_name_refuted, C92_later_registration_refuted, C92_set_config_refuted and C92_slash_refuted. Printing is not modelled; the clock is any function to the reals."
  },
  {
   "property": "C93",
   "status": "proved",
   "theorems": [
    "C93_collected",
    "C93_after_build",
    "C93_last_built_refuted",
    "C93_first_name_refuted",
    "C93_not_compiled"
   ],
   "note": "The exceptions are C93_last_built_refuted, C93_first_name_refuted and C93_not_compiled. Classes of the same name are taken to be the same class."
  },
  {
   "property": "C94",
   "status": "proved",
   "theorems": [
    "C94_bins",
    "C94_no_node",
    "C94_bars_linear",
    "C94_log_bars_refuted",
    "C94_log_bars_negative_refuted",
    "C94_image",
    "C94_shows_map",
    "C94_points",
    "C94_collapse",
    "C94_collapse_order",
    "C94_collapse_between",
    "C94_figures"
   ],
   "note": "The exceptions are C94_log_bars_refuted, C94_log_bars_negative_refuted and C94_no_node. matplotlib is not modelled: a bar is its two ends and height, an image its extent and pixels."
  },
  {
   "property": "C95",
   "status": "proved",
   "theorems": [
    "C95_stem",
    "C95_targets",
    "C95_saved",
    "C95_one_file_each",
    "C95_same_name_refuted",
    "C95_sigma_images_refuted",
    "C95_sigma_axes_refuted",
    "C95_sigma_band",
    "C95_lookup",
    "C95_lookup_refuted",
    "C95_sigma_collapsed",
    "C95_not_saved"
   ],
   "note": "The exceptions are C95_sigma_images_refuted, C95_same_name_refuted, C95_sigma_axes_refuted and C95_lookup_refuted. The interpolated band between the curves of point sigma maps is not modelled."
  },
  {
   "property": "C96",
   "status": "proved",
   "theorems": [
    "C96_kept",
    "C96_row",
    "C96_mpe",
    "C96_no_sample",
    "C96_as_context",
    "C96_burn_in",
    "C96_dropped_refuted",
    "C96_all_dropped_refuted",
    "C96_marginal",
    "C96_uniform_outside_refuted",
    "C96_all_plots",
    "C96_one_parameter_refuted"
   ],
   "note": "The exceptions are C96_dropped_refuted, C96_all_dropped_refuted, C96_uniform_outside_refuted, C96_one_parameter_refuted and C96_no_sample; uniform_pdf of equal bounds is part of the model. The automatic range of the drawn prior (numpy linspace over the axis limits) is a parameter of the model."
  },
  {
   "property": "C97",
   "status": "proved",
   "theorems": [
    "C97_cumulative",
    "C97_whole",
    "C97_moving",
    "C97_long_window",
    "C97_made",
    "C97_walker",
    "C97_walker_refuted",
    "C97_thin_refuted",
    "C97_one_iteration"
   ],
   "note": "The exceptions are C97_walker_refuted, C97_thin_refuted and C97_one_iteration."
  },
  {
   "property": "C98",
   "status": "proved",
   "theorems": [
    "C98_autocorrelation",
    "C98_padding",
    "C98_plot",
    "C98_increasing",
    "C98_capped",
    "C98_made",
    "C98_constant_walker_refuted",
    "C98_short_chain_refuted"
   ],
   "note": "The exceptions are C98_constant_walker_refuted, C98_short_chain_refuted and C96_one_parameter_refuted. The Fourier transforms are modelled by their defining sums over the reals."
  },
  {
   "property": "C99",
   "status": "proved",
   "theorems": [
    "C99_one_root",
    "C99_percentiles",
    "C99_widths",
    "C99_normalised",
    "C99_zero_errors"
   ],
   "note": "The error function and the normal distribution function are shown to exist from the standard library alone (ProofGauss.v: the Gaussian integral), so no hypothesis about them is open (C99_erf_case). That scipy.optimize.root converges is not claimed."
  },
  {
   "property": "C100",
   "status": "proved",
   "theorems": [
    "C100_made",
    "C100_samples",
    "C100_kept",
    "C100_fixed",
    "C100_best",
    "C100_superfluous",
    "C100_few_walkers",
    "C100_metropolis"
   ],
   "note": "emcee is modelled (EnsembleSampler, acceptance rule of the red-blue and Metropolis moves, backends); its moves are arbitrary functions. The log prior is stored without rounding to 32 bits."
  },
  {
   "property": "C101",
   "status": "proved",
   "theorems": [
    "C101_longer",
    "C101_progress",
    "C101_still_progress",
    "C101_pieces",
    "C101_from_backend",
    "C101_written",
    "C101_other",
    "C101_other_shape",
    "C101_memory",
    "C101_interrupted",
    "C101_stale_refuted",
    "C101_other_range_refuted",
    "C101_other_names_refuted"
   ],
   "note": "Refutations of what one would expect: C101_stale_refuted, C101_other_range_refuted, C101_other_names_refuted. Same keys are assumed for the two sessions of C101_from_backend (they come from the clock)."
  },
  {
   "property": "C102",
   "status": "proved",
   "theorems": [
    "C102_fingerprint",
    "C102_histogram",
    "C102_moved_files",
    "C102_dump_constant_set_refuted",
    "C102_dump",
    "C102_records",
    "C102_binned",
    "C102_source_refuted",
    "C102_scaler_refuted",
    "C102_rewritten_file_refuted",
    "C102_flags_refuted",
    "C102_blocks"
   ],
   "note": "The provisos are witnessed by C102_source_refuted, C102_scaler_refuted, C102_rewritten_file_refuted, C102_flags_refuted and C102_dump_constant_set_refuted; the lineage of a component also goes stale when another likelihood is compiled (C73_shared_class_refuted). Lineages are compared as dictionaries; the hash of a lineage (strax) is not modelled. The lineages of likelihoods and contexts are not modelled."
  },
  {
   "property": "C103",
   "status": "proved",
   "theorems": [
    "C103_median",
    "C103_one_median",
    "C103_between",
    "C103_after_fit",
    "C103_template",
    "C103_no_template",
    "C103_template_events",
    "C103_template_fixed",
    "C103_template_alias_refuted",
    "C103_median_zero_refuted"
   ],
   "note": "That the medians are no sample is C103_median_zero_refuted, that aliases are not applied is C103_template_alias_refuted. For a second fit of the same context see C48 (the first chain is read for ever)."
  },
  {
   "property": "C104",
   "status": "proved",
   "theorems": [
    "C104_compile_twice",
    "C104_compile_after_build",
    "C104_same",
    "C104_bootstrap",
    "C104_g4_left_refuted",
    "C104_needs_g4_refuted",
    "C104_no_entry",
    "C104_zero_refuted",
    "C104_name_refuted"
   ],
   "note": "The exceptions are C104_needs_g4_refuted, C104_zero_refuted, C104_name_refuted and C104_g4_left_refuted. The table given by the user to set_config is the same object as the one changed; the model has one copy only."
  },
  {
   "property": "C105",
   "status": "proved",
   "theorems": [
    "C105_drawn",
    "C105_rectangles",
    "C105_corner",
    "C105_histogram",
    "C105_density_total",
    "C105_scale",
    "C105_colours",
    "C105_limits",
    "C105_scale_error",
    "C105_errors",
    "C105_zero_area_refuted",
    "C105_ignores_refuted"
   ],
   "note": "The exceptions are C105_zero_area_refuted and C105_ignores_refuted. Of matplotlib only Rectangle arguments, Normalize and the axis limits are modelled; the colour map and the colour bar are not."
  },
  {
   "property": "C106",
   "status": "proved",
   "theorems": [
    "C106_fingerprint",
    "C106_in_force",
    "C106_dump",
    "C106_dump_refuted",
    "C106_order_refuted",
    "C106_shared_class_refuted",
    "C106_path_refuted",
    "C106_records",
    "C106_complete",
    "C106_alias"
   ],
   "note": "The exceptions are C106_dump_refuted, C106_order_refuted, C106_shared_class_refuted and C106_path_refuted. What data histograms, fixed histograms and literature terms are made of is taken from the code (arguments of arbitrary functions); hashes are arbitrary functions assumed free of collisions, and ProofHash.v shows that such functions exist. C102 treats the lineage of a single component."
  },
  {
   "property": "C107",
   "status": "proved",
   "theorems": [
    "C107_refused",
    "C107_copy",
    "C107_same_events",
    "C107_same_histogram",
    "C107_shared_configs",
    "C107_llh_taken",
    "C107_second_default_refuted",
    "C107_fixed_refuted",
    "C107_rate_refuted",
    "C107_per_llh_refuted",
    "C107_registered_refuted"
   ],
   "note": "The exceptions are C107_rate_refuted, C107_registered_refuted, C107_per_llh_refuted, C107_second_default_refuted and C107_fixed_refuted. The source of the plugins is assumed not to use the name of the likelihood (ignores_llh), which holds for all that are shipped."
  },
  {
   "property": "C108",
   "status": "proved",
   "theorems": [
    "C108_bins",
    "C108_total",
    "C108_floor",
    "C108_exists",
    "C108_called",
    "C108_not_compiled",
    "C108_no_energy_refuted",
    "C108_unused_refuted",
    "C108_cleared_refuted",
    "C108_taken_over_refuted",
    "C108_fixed_refuted",
    "C108_floor_total_refuted"
   ],
   "note": "The exceptions are C108_floor_total_refuted, C108_no_energy_refuted, C108_unused_refuted, C108_cleared_refuted, C108_taken_over_refuted and C108_fixed_refuted. The attribute g4.n_events_selected, which no plugin of the repository has, is an arbitrary function of the instance; a recompilation that fails half way is not covered."
  },
  {
   "property": "C109",
   "status": "proved",
   "theorems": [
    "C109_reads",
    "C109_same_text",
    "C109_compile",
    "C109_component_name_refuted",
    "C109_llh_quote_refuted",
    "C109_llh_other_refuted",
    "C109_llh_config_refuted",
    "C109_keyword_refuted",
    "C109_hidden_class_refuted",
    "C109_hidden_instance_refuted",
    "C109_failed_recompile_refuted",
    "C109_nodep_refuted"
   ],
   "note": "The exceptions are C109_component_name_refuted, C109_llh_quote_refuted, C109_llh_other_refuted, C109_llh_config_refuted, C109_keyword_refuted, C109_hidden_class_refuted, C109_hidden_instance_refuted, C109_failed_recompile_refuted and C109_nodep_refuted. The reader of Python covers the statements that such code consists of; jit is taken to change nothing but which argument is static."
  },
  {
   "property": "C110",
   "status": "proved",
   "theorems": [
    "C110_uniform_energy",
    "C110_cdf_spectrum",
    "C110_pdf_spectrum",
    "C110_pdf_atom_refuted",
    "C110_positions",
    "C110_cdf_ends"
   ],
   "note": "That the random numbers of jax are independent and uniform is not part of the claim; they are arguments. The exception for pdf tables is C110_pdf_atom_refuted."
  },
  {
   "property": "C111",
   "status": "proved",
   "theorems": [
    "C111_nr_box",
    "C111_nr_quanta",
    "C111_nr_charge",
    "C111_nr_light",
    "C111_nr_chain",
    "C111_nr_field",
    "C111_nr_threshold",
    "C111_er_charge",
    "C111_er_ratio",
    "C111_nr_width",
    "C111_er_width",
    "C111_field"
   ],
   "note": "On real numbers; single precision is not modelled. erf is an argument with the bounds and sign stated in SpecRandgen."
  },
  {
   "property": "C112",
   "status": "proved",
   "theorems": [
    "C112_quanta",
    "C112_er_split",
    "C112_recombination",
    "C112_from_map",
    "C112_nr_ions",
    "C112_er_ions",
    "C112_er_electrons",
    "C112_er_mean",
    "C112_cut_refuted"
   ],
   "note": "Moments are taken over finite distributions of the random numbers; binomial numbers are those of jax.random.binomial (the default mode), not the normal approximation. The mean after the cut is C112_cut_refuted."
  },
  {
   "property": "C113",
   "status": "proved",
   "theorems": [
    "C113_hybrid_small",
    "C113_hybrid_large",
    "C113_hybrid_rare_refuted",
    "C113_normal_approximation",
    "C113_default_small",
    "C113_modes",
    "C113_bernoulli",
    "C113_normal",
    "C113_gamma",
    "C113_skewnormal",
    "C113_negative_binomial",
    "C113_generalized_poisson"
   ],
   "note": "Finite distributions stand for those of jax. The exception is C113_hybrid_rare_refuted. The two-half-normal sampler is C58."
  },
  {
   "property": "C114",
   "status": "proved",
   "theorems": [
    "C114_unbiased",
    "C114_total",
    "C114_empty",
    "C114_floor",
    "C114_floor_impossible_refuted",
    "C114_on_pdf_nan",
    "C114_on_pdf_same",
    "C114_log_likelihood",
    "C114_single",
    "C114_minus_infinity_refuted",
    "C114_on_pdf_refuted"
   ],
   "note": "Independence of the events of a batch is a hypothesis (record independent); finite distributions. Exceptions: C114_floor_impossible_refuted, C114_on_pdf_refuted, C114_minus_infinity_refuted. Several components are covered by C114_log_likelihood, the averages of bins by component."
  },
  {
   "property": "C115",
   "status": "proved",
   "theorems": [
    "C115_constant",
    "C115_threefold",
    "C115_spectrum",
    "C115_yields",
    "C115_spectrum_yields",
    "C115_smearing",
    "C115_usable",
    "C115_named",
    "C115_instructs",
    "C115_field",
    "C115_corrections",
    "C115_efficiency",
    "C115_lifetime",
    "C115_recoils"
   ],
   "note": "The numbers are the decimals in the files; rounding to floating point numbers is not modelled. That the band parameters do nothing with the shipped maps is part of C115_efficiency."
  },
  {
   "property": "C116",
   "status": "proved",
   "theorems": [
    "C116_whole",
    "C116_counts",
    "C116_ceiling",
    "C116_stuck",
    "C116_error",
    "C116_sum",
    "C116_log_likelihood",
    "C116_order_refuted"
   ],
   "note": "Rounding to nearest even with an unlimited range of exponents: overflow and subnormal numbers are not modelled. make_hist_irreg_bin_1d adds in the order of the events (rounded_hist_1d); C116_whole, C116_sum and C116_log_likelihood hold for every order. That the order does not matter is refuted by C116_order_refuted."
  },
  {
   "property": "C117",
   "status": "proved",
   "theorems": [
    "C117_likelihood",
    "C117_posterior",
    "C117_prior_only"
   ],
   "note": "What the code of a plugin does is arbitrary except that it reads no parameter it has not declared (reads_declared). The parameters in question must have a value, otherwise a parameter given directly under the name of a component parameter takes the place of the alias. With the shipped maps the two band sigmas are read but have no influence (C115_efficiency)."
  },
  {
   "property": "C118",
   "status": "proved",
   "theorems": [
    "C118_concave",
    "C118_total",
    "C118_one",
    "C118_context"
   ],
   "note": "For a fixed key: log_posterior splits a new key for every call, so what a sampler sees is this function plus the noise of the simulation (C114). That a simulation reads no rate is proved for contexts whose plugins declare what they read and declare no rate (C118_context)."
  },
  {
   "property": "C119",
   "status": "proved",
   "theorems": [
    "C119_hist",
    "C119_project",
    "C119_project_irreg",
    "C119_model",
    "C119_deviance",
    "C119_floor_refuted",
    "C119_last_edge_refuted"
   ],
   "note": "Joining is stated for one-dimensional irregular and meshgrid bins and two-dimensional meshgrids; for two-dimensional irregular bins the sums over rows (C119_project_irreg). C119_floor_refuted: one event in three bins with the floor; C119_last_edge_refuted: leaving out the last edge of a meshgrid moves events on the new last edge into its bin."
  },
  {
   "property": "C120",
   "status": "proved",
   "theorems": [
    "C120_totals",
    "C120_top",
    "C120_all_shown",
    "C120_compare",
    "C120_worksheet",
    "C120_no_runs_refuted"
   ],
   "note": "The reports are modelled as rows of numbers and names: widths and decimals are left out. C120_no_runs_refuted: n_runs = 0 gives NaN times with an overhead of zero percent. The order when times are NaN is not stated."
  },
  {
   "property": "C121",
   "status": "proved",
   "theorems": [
    "C121_hist_1d",
    "C121_hist_2d",
    "C121_mesh_1d",
    "C121_mesh_2d",
    "C121_same",
    "C121_interp",
    "C121_curve",
    "C121_between",
    "C121_unsorted_refuted"
   ],
   "note": "The bisection follows the default method of jax.numpy.searchsorted, which is not part of /repo. C121_unsorted_refuted: with edges 0, 10, 5, 20 the sample 7 is inside (0, 10] and (5, 20] and counted in the latter."
  },
  {
   "property": "C122",
   "status": "proved",
   "theorems": [
    "C122_provider",
    "C122_order",
    "C122_lists",
    "C122_base",
    "C122_failure",
    "C122_definition_order_refuted"
   ],
   "note": "C122_definition_order_refuted: of two classes that provide energy, ZedEnergy is used although MonoEnergy is defined after it."
  },
  {
   "property": "C123",
   "status": "proved",
   "theorems": [
    "C123_histogram",
    "C123_constructor",
    "C123_simulated",
    "C123_fixed",
    "C123_likelihood",
    "C123_random_refuted"
   ],
   "note": "C123_random_refuted: two plugins that both depend on energy get their keys in an order that depends on bins_on. The binnings equiprob and irreg treat their axes differently and are not covered."
  },
  {
   "property": "C124",
   "status": "proved",
   "theorems": [
    "C124_number",
    "C124_failure",
    "C124_rates",
    "C124_fixed_parameters_refuted",
    "C124_summary",
    "C124_pars_refuted"
   ],
   "note": "C124_fixed_parameters_refuted: the parameters with which log_posterior succeeds are not enough (KeyError). C124_pars_refuted: a printed name that is no parameter of the context, because of an alias. The layout of the printed text is not modelled."
  },
  {
   "property": "C125",
   "status": "proved",
   "theorems": [
    "C125_simulate",
    "C125_hist",
    "C125_no_eff_refuted",
    "C125_not_deduced",
    "C125_shows",
    "C125_compile",
    "C125_other_name",
    "C125_code_refuted"
   ],
   "note": "C125_code_refuted: after the refused deduce and compile() the attribute code is not the code that runs. C125_no_eff_refuted: force_no_eff of a refused deduce makes simulate_hist fail."
  },
  {
   "property": "C126",
   "status": "proved",
   "theorems": [
    "C126_seeds",
    "C126_two_calls",
    "C126_run",
    "C126_period_refuted",
    "C126_same_tick_refuted"
   ],
   "note": "C126_period_refuted and C126_same_tick_refuted are the exceptions. What jax.random.PRNGKey makes of an integer (its 64 bits, cut to 32 without x64) is modelled after the jax source, which is not in the repository."
  },
  {
   "property": "C127",
   "status": "proved",
   "theorems": [
    "C127_same",
    "C127_different",
    "C127_surrogates_refuted",
    "C127_erased",
    "C127_unopened",
    "C127_not_empty"
   ],
   "note": "C127_surrogates_refuted and C127_erased are the exceptions. Numbers are the digits that repr prints; keys that are not strings are not modelled."
  },
  {
   "property": "C128",
   "status": "proved",
   "theorems": [
    "C128_points",
    "C128_pdf",
    "C128_grid2",
    "C128_grid3",
    "C128_idw2",
    "C128_idw3",
    "C128_refused",
    "C128_refused_grid",
    "C128_one_axis_refuted"
   ],
   "note": "C128_one_axis_refuted is the exception (see C55). C37 and C56 say what is unexpected about pdf and log_point. IDW on grids is not exact at nodes (C35)."
  },
  {
   "property": "C129",
   "status": "proved",
   "theorems": [
    "C129_answers",
    "C129_number",
    "C129_rates",
    "C129_rate_taken",
    "C129_shared_rate_refuted"
   ],
   "note": "What is asked of the instruction: the hypotheses of C82 and C87; used plugins have a non-empty depends_on (only then is a batch size known to them); no needed parameter is itself renamed by an alias; norm_type on_sim needs an energy plugin, and for a bootstrap input that the number of selected events is known; fixed components are normalised on_pdf (on_sim raises an AttributeError at the first evaluation); the arguments of a LikelihoodLit broadcast together. That no needed parameter is renamed is necessary: C129_rate_taken, and C129_shared_rate_refuted is a context with alias {\"ac_rate\": \"er_rate\"}, meant to give two components one rate, which is constructed and passes the sanity check and then raises at every evaluation."
  },
  {
   "property": "C130",
   "status": "proved",
   "theorems": [
    "C130_reader",
    "C130_follows_name",
    "C130_context",
    "C130_saved",
    "C130_nothing_to_save_refuted",
    "C130_bare_name_refuted"
   ],
   "note": "Witnesses: C130_bare_name_refuted, C130_nothing_to_save_refuted. What pandas makes of a file is an arbitrary function of reader and path; files of ntauxfiles and downloads have paths of their own. C130_saved uses C109 and has its hypotheses (plain names)."
  },
  {
   "property": "C131",
   "status": "proved",
   "theorems": [
    "C131_reads",
    "C131_unknown",
    "C131_other",
    "C131_written",
    "C131_dict_refuted"
   ],
   "note": "Witness: C131_dict_refuted. The array that is returned is modelled as the list of its entries; a single name gives a list with one entry."
  },
  {
   "property": "C132",
   "status": "proved",
   "theorems": [
    "C132_prior",
    "C132_init",
    "C132_independent"
   ],
   "note": "The generator of numpy is a sequence of answers, one for each request; every sequence is allowed. The root finder behind twohalfnorm is an arbitrary function."
  },
  {
   "property": "C133",
   "status": "proved",
   "theorems": [
    "C133_names",
    "C133_apply",
    "C133_only",
    "C133_median_unused_refuted",
    "C133_at"
   ],
   "note": "Witness: C133_median_unused_refuted. Contents of files are what they were when the map was built."
  },
  {
   "property": "C134",
   "status": "proved",
   "theorems": [
    "C134_own",
    "C134_only",
    "C134_elsewhere",
    "C134_unfinished",
    "C134_other_number",
    "C134_url_base_refuted",
    "C134_names_refuted"
   ],
   "note": "Witnesses of the exceptions: C134_elsewhere, C134_url_base_refuted, C134_names_refuted. The constructor is an arbitrary function of the file (the instruct it gets is C49); that emcee refuses to initialise a read-only backend is part of the model of emcee."
  },
  {
   "property": "C135",
   "status": "proved",
   "theorems": [
    "C135_exchanged",
    "C135_exchanged_outer",
    "C135_exchanged_inner",
    "C135_constant",
    "C135_idw_refuted"
   ],
   "note": "Witness: C135_idw_refuted. Exchanging neighbouring axes of three (outer and inner) generates all orders."
  },
  {
   "property": "C136",
   "status": "proved",
   "theorems": [
    "C136_order",
    "C136_columns",
    "C136_outside",
    "C136_joined",
    "C136_fixed"
   ],
   "note": "Column names are taken to be distinct within a file (C136_columns). Sums of equiprob histograms are not claimed, as the bins depend on the data."
  },
  {
   "property": "C137",
   "status": "proved",
   "theorems": [
    "C137_order",
    "C137_rejected",
    "C137_joined",
    "C137_unit",
    "C137_floor_refuted"
   ],
   "note": "Witness: C137_floor_refuted. C137_unit asks for finite efficiencies and a finite rate."
  }
 ]
}