{
 "claims": [
  {
   "property": "C01",
   "status": "proved",
   "theorems": [
    "dependencies_exact",
    "dependencies_symmetric",
    "dependencies_reflexive"
   ],
   "note": ""
  },
  {
   "property": "C02",
   "status": "proved",
   "theorems": [
    "site_index_exact",
    "site_index_members",
    "site_index_any_history"
   ],
   "note": ""
  },
  {
   "property": "C03",
   "status": "proved",
   "theorems": [
    "library_roundtrip",
    "built_library_roundtrip",
    "library_file_roundtrip",
    "loaded_library_is_complete_and_in_range",
    "library_without_metadata_rejected",
    "only_complete_libraries_are_saved",
    "loaded_dependencies_exact_refuted"
   ],
   "note": "A loaded dependency matrix is not checked against the events (refuted witness)."
  },
  {
   "property": "C04",
   "status": "proved",
   "theorems": [
    "dependencies_describe_a_prefix",
    "dependencies_after_generate_then_adds",
    "dependencies_always_current_refuted"
   ],
   "note": ""
  },
  {
   "property": "C05",
   "status": "proved",
   "theorems": [
    "cached_rates_never_stale",
    "own_site_models_are_local",
    "composite_rates_never_stale"
   ],
   "note": "For every model and number type; exact dependencies are what generate_event_dependencies yields (dependencies_exact)."
  },
  {
   "property": "C06",
   "status": "proved",
   "theorems": [
    "rates_fresh_without_dependencies_refuted",
    "rates_fresh_after_late_add_refuted",
    "rates_fresh_with_negative_indices_refuted",
    "rates_fresh_with_nonlocal_site_energy_refuted",
    "rates_fresh_with_nonlocal_rules_refuted"
   ],
   "note": "Each theorem exhibits a reachable history with a stale rate when one hypothesis of C05 is dropped."
  },
  {
   "property": "C07",
   "status": "proved",
   "theorems": [
    "cumulative_list_is_running_sum",
    "cumulative_entry_is_partial_sum"
   ],
   "note": ""
  },
  {
   "property": "C08",
   "status": "proved",
   "theorems": [
    "selection_returns_possible_event",
    "selection_without_rates_raises"
   ],
   "note": ""
  },
  {
   "property": "C09",
   "status": "proved",
   "theorems": [
    "selection_probability_interval",
    "selection_probability_length"
   ],
   "note": ""
  },
  {
   "property": "C10",
   "status": "proved",
   "theorems": [
    "float_selection_returns_possible_event",
    "float_waiting_time_nonneg",
    "float_clock_never_goes_back"
   ],
   "note": "Flocq binary64, round to nearest even; the C library's log is a parameter with the stated contract."
  },
  {
   "property": "C100",
   "status": "proved",
   "theorems": [
    "build_starts_afresh",
    "build_keeps_what_is_left_out",
    "failed_build_keeps_the_table_refuted",
    "build_sets_the_default_barrier_refuted",
    "build_refuses_what_the_constructor_refuses_refuted",
    "model_can_be_saved_after_a_refused_build_refuted"
   ],
   "note": "RuleTableProps.v; the model of build returns the object as it is left also when an exception is raised; float of a text is a parameter."
  },
  {
   "property": "C101",
   "status": "proved",
   "theorems": [
    "transformation_results_are_its_answers",
    "orderings_are_exhaustive_results",
    "only_vacancy_permitted_is_refused",
    "unreadable_answer_stops_the_call",
    "answers_keep_the_base_refuted",
    "answers_are_permitted_refuted",
    "supercell_answer_refuted"
   ],
   "note": "EnumTransformProps.v; the transformation is a parameter, a function of the structure and the request; cells of answers are diagonal supercells."
  },
  {
   "property": "C102",
   "status": "proved",
   "theorems": [
    "measuring_leaves_trajectory",
    "unmeasured_run_completes",
    "equilibration_moves_as_production",
    "longer_run_extends_shorter"
   ],
   "note": "TrajectoryProps.v; callbacks act on the property settings only (a callback that edits the simulation state by itself is outside the model)."
  },
  {
   "property": "C103",
   "status": "proved",
   "theorems": [
    "two_calls_as_one",
    "seeded_calls_repeat",
    "seeded_calls_cycle",
    "seeded_calls_continue_refuted"
   ],
   "note": "TrajectoryProps.v; the generator made from a seed is a parameter, a function of the seed."
  },
  {
   "property": "C104",
   "status": "proved",
   "theorems": [
    "forgetful_model_can_be_shared",
    "object_alone_is_an_engine",
    "local_barrier_model_is_forgetful",
    "composite_without_external_is_forgetful",
    "resetting_model_can_be_used_again",
    "site_energy_model_can_be_used_again",
    "external_model_can_be_shared_refuted",
    "told_model_can_be_used_again_refuted"
   ],
   "note": "SharedProps.v; all objects are given the same active-site order."
  },
  {
   "property": "C105",
   "status": "proved",
   "theorems": [
    "initialisation_of_an_object",
    "use_of_an_object",
    "first_use_initialises",
    "first_order_stays",
    "only_an_order_binds",
    "initialising_forgets_history",
    "wrong_count_keeps_use",
    "refused_order_does_not_bind_refuted",
    "refused_initialisation_is_harmless_refuted"
   ],
   "note": "SiteObjectProps.v; a function told of an event that raises is taken to leave the evaluator as it was."
  },
  {
   "property": "C106",
   "status": "proved",
   "theorems": [
    "everything_is_listed_once",
    "tracker_lists_the_same",
    "enabling_moves_one_name",
    "listing_tells_sampling",
    "current_info_is_last_row"
   ],
   "note": "ListingProps.v"
  },
  {
   "property": "C107",
   "status": "proved",
   "theorems": [
    "random_occupation_site_by_site",
    "random_occupation_is_valid",
    "fill_fraction_limits",
    "seeded_occupation_repeats",
    "larger_fraction_only_adds",
    "random_occupation_in_another_basis",
    "unseeded_calls_continue",
    "random_occupation_refuses",
    "seeded_call_is_private_refuted",
    "refused_call_draws_nothing_refuted",
    "fill_fraction_is_exact_refuted"
   ],
   "note": "RandomOccProps.v; numpy's global generator is any state machine of draws."
  },
  {
   "property": "C108",
   "status": "proved",
   "theorems": [
    "accepted_shape_is_three_integers",
    "only_no_value_has_no_shape",
    "reading_twice_is_reading_once",
    "other_failures_of_a_shape",
    "accepted_mapping_is_the_dictionary",
    "fraction_in_shape_is_refused_refuted",
    "wrong_shape_is_reported_refuted",
    "accepted_shape_is_positive_refuted"
   ],
   "note": "OptionProps.v; ast.literal_eval is a parameter."
  },
  {
   "property": "C109",
   "status": "proved",
   "theorems": [
    "report_is_the_last_row",
    "report_shows_last_sample",
    "report_lines_have_distinct_names_refuted"
   ],
   "note": "ReportProps.v; the layout of the printed table is not modelled."
  },
  {
   "property": "C11",
   "status": "proved",
   "theorems": [
    "waiting_time_exponential",
    "waiting_time_always_finite_refuted"
   ],
   "note": ""
  },
  {
   "property": "C12",
   "status": "proved",
   "theorems": [
    "accepted_events_conserve_contents",
    "accepted_event_exchanges_endpoints"
   ],
   "note": ""
  },
  {
   "property": "C13",
   "status": "proved",
   "theorems": [
    "run_step_and_time_accounting",
    "run_time_grows",
    "pass_length_counts_mobile_ions_refuted"
   ],
   "note": ""
  },
  {
   "property": "C14",
   "status": "proved",
   "theorems": [
    "hop_can_be_undone"
   ],
   "note": "Needs both endpoints to use the same codes; without it see C19."
  },
  {
   "property": "C15",
   "status": "proved",
   "theorems": [
    "rate_positive_iff_hoppable",
    "rate_is_arrhenius"
   ],
   "note": "Real-valued composite model; any submodels. The second theorem gives the exact value."
  },
  {
   "property": "C16",
   "status": "proved",
   "theorems": [
    "detailed_balance",
    "detailed_balance_with_endpoint_in_environment_refuted"
   ],
   "note": "Exact ratio for LCE submodels; the refutation shows the endpoint condition is needed."
  },
  {
   "property": "C17",
   "status": "proved",
   "theorems": [
    "only_hoppable_events_drawn",
    "composite_rates_never_stale",
    "rate_positive_iff_hoppable"
   ],
   "note": "From construction through any history of accepted events."
  },
  {
   "property": "C18",
   "status": "proved",
   "theorems": [
    "tracked_ions_are_the_mobile_ions",
    "tracker_creation_succeeds",
    "tracker_without_lookup_refuted",
    "tracker_with_negative_index_refuted"
   ],
   "note": "With a lookup, or without one when all events live on the first sites; the refutations show both conditions are needed."
  },
  {
   "property": "C19",
   "status": "proved",
   "theorems": [
    "hop_conserves_ions_across_encodings_refuted"
   ],
   "note": "Existence claim, with a lookup built through the public constructors."
  },
  {
   "property": "C20",
   "status": "proved",
   "theorems": [
    "tracker_rows_follow_journeys"
   ],
   "note": ""
  },
  {
   "property": "C21",
   "status": "proved",
   "theorems": [
    "hop_displacement_minimum_image",
    "reverse_hop_displacement_opposite"
   ],
   "note": "Exact rational arithmetic."
  },
  {
   "property": "C22",
   "status": "proved",
   "theorems": [
    "tracker_rows_follow_journeys",
    "displacement_telescopes"
   ],
   "note": "Exact rational arithmetic."
  },
  {
   "property": "C23",
   "status": "proved",
   "theorems": [
    "property_schedule_exact",
    "result_rows_exact"
   ],
   "note": "For every time type; callbacks may fail but make no property-control calls during the sequence."
  },
  {
   "property": "C24",
   "status": "proved",
   "theorems": [
    "time_samples_spaced"
   ],
   "note": ""
  },
  {
   "property": "C25",
   "status": "proved",
   "theorems": [
    "stored_records_most_recent"
   ],
   "note": ""
  },
  {
   "property": "C26",
   "status": "proved",
   "theorems": [
    "results_rectangular",
    "result_row_exact",
    "result_rows_exact"
   ],
   "note": "The first two hold for arbitrary callbacks; the third for callbacks that make no property-control calls."
  },
  {
   "property": "C27",
   "status": "proved",
   "theorems": [
    "attachments_consistent",
    "rejected_call_changes_nothing",
    "attach_accepted_iff",
    "attach_effect",
    "control_effects",
    "schedules_agree_refuted"
   ],
   "note": "Over all histories of calls, runs and samples, with callbacks that may call the API. The global schedule is the exception: clearing it stops the running tracker but not the next run (refuted witness)."
  },
  {
   "property": "C28",
   "status": "proved",
   "theorems": [
    "failing_callbacks_contained",
    "failure_is_always_callback_error_refuted",
    "detached_callback_not_called_refuted"
   ],
   "note": "For callbacks that do not call the property API; the refutations show what happens when they do."
  },
  {
   "property": "C29",
   "status": "proved",
   "theorems": [
    "runs_start_fresh"
   ],
   "note": ""
  },
  {
   "property": "C30",
   "status": "proved",
   "theorems": [
    "active_sites_partition",
    "active_iff_several_species",
    "original_and_active_inverse",
    "allowed_species_from_first_match",
    "fingerprint_identifies_order",
    "fingerprint_identifies_loaded_order_refuted",
    "filter_by_position_sound"
   ],
   "note": "The sha256 fingerprint is a parameter; identification holds where it does not collide. A loaded order's stored fingerprint is trusted (refuted witness)."
  },
  {
   "property": "C31",
   "status": "proved",
   "theorems": [
    "supercell_sites_enumerated",
    "supercell_size",
    "active_sites_know_their_primitive_site",
    "active_order_lengths"
   ],
   "note": ""
  },
  {
   "property": "C32",
   "status": "proved",
   "theorems": [
    "select_active_values_keeps_identity",
    "selected_rows_are_site_blocks",
    "select_sites_agrees_with_active_order"
   ],
   "note": ""
  },
  {
   "property": "C33",
   "status": "proved",
   "theorems": [
    "order_payload_roundtrip",
    "state_payload_roundtrip",
    "checkpoint_roundtrip",
    "checkpoint_roundtrip_any_name_refuted"
   ],
   "note": "A checkpoint file named exactly '.json' is written as JSON only if its suffix is seen; the refuted witness shows the exception."
  },
  {
   "property": "C34",
   "status": "proved",
   "theorems": [
    "hop_codes_name_their_species",
    "hop_direction_exact",
    "mobile_species_with_charge_refuted",
    "every_vacancy_label_recognised_refuted"
   ],
   "note": ""
  },
  {
   "property": "C35",
   "status": "proved",
   "theorems": [
    "external_occupation_builds",
    "external_occupation_follows",
    "external_occupation_equals_fresh_build",
    "open_element_type_refuted",
    "text_width_refuted"
   ],
   "note": "Up to Python equality of the values. When the element type is left open a fresh build may choose another one (refuted witness)."
  },
  {
   "property": "C36",
   "status": "proved",
   "theorems": [
    "shared_external_site_refuted"
   ],
   "note": ""
  },
  {
   "property": "C37",
   "status": "proved",
   "theorems": [
    "state_code_translation",
    "normalised_mappings_are_proper",
    "mapping_checked_for_all_states_refuted"
   ],
   "note": "The refutation records that codes are only checked against the initial occupations."
  },
  {
   "property": "C38",
   "status": "proved",
   "theorems": [
    "lce_value_is_cluster_expansion",
    "lce_value_defined",
    "lce_value_reads_only_the_environment"
   ],
   "note": "Plain and decorated correlation kernels."
  },
  {
   "property": "C39",
   "status": "proved",
   "theorems": [
    "orbits_partition_clusters",
    "orbits_group_by_first_match",
    "orbits_are_equivalence_classes",
    "tolerance_orbits_depend_on_order_refuted"
   ],
   "note": "Any equality test; equivalence only when the test is one."
  },
  {
   "property": "C40",
   "status": "proved",
   "theorems": [
    "accepted_parameters_fit",
    "fitting_parameters_accepted",
    "rejected_parameters_change_nothing",
    "parameters_order_checked_without_fingerprints_refuted"
   ],
   "note": "The number is only checked when the model has features; without fingerprints in the payload the order cannot be checked."
  },
  {
   "property": "C41",
   "status": "proved",
   "theorems": [
    "first_rule_decides",
    "query_answers_as_prescribed",
    "at_most_one_exact_rule_applies",
    "prescription_is_unique",
    "rules_for_hoppable_states_suffice_refuted",
    "only_overlapping_exact_rules_rejected_refuted"
   ],
   "note": "str() of a rule name that is not text is a parameter that is never empty."
  },
  {
   "property": "C42",
   "status": "proved",
   "theorems": [
    "checked_occupations_are_legal",
    "conversion_keeps_the_pattern",
    "conversion_round_trip",
    "named_converters_agree",
    "equivalence_is_same_pattern",
    "counts_and_indices",
    "flip_swaps_the_named_sites",
    "flip_twice_is_identity",
    "zeros_are_vacant_ones_are_occupied",
    "basis_round_trip",
    "flip_twice_with_three_states_refuted",
    "conversions_of_a_third_state_agree_refuted",
    "equivalence_with_three_states_refuted",
    "rejected_assignment_changes_nothing_refuted",
    "conversion_to_own_basis_stays_legal_refuted"
   ],
   "note": "BasisProps.v; single-index assignment only (no slices)."
  },
  {
   "property": "C43",
   "status": "proved",
   "theorems": [
    "match_found_iff",
    "match_is_a_fit",
    "unique_match_iff",
    "match_reports_its_permutation",
    "match_fails_with_value_error",
    "clusters_are_proper",
    "clusters_from_coordinates_are_symmetric",
    "asymmetric_match_is_sound_refuted"
   ],
   "note": "MatcherProps.v; distances are exact rationals and symmetric, which clusters built from coordinates always are. The refutation: with an explicit matrix that is not symmetric only half the entries are compared."
  },
  {
   "property": "C44",
   "status": "proved",
   "theorems": [
    "nearest_match_is_optimal",
    "nearest_match_fails_iff",
    "nearest_unique_flag_refuted"
   ],
   "note": "MatcherProps.v; the refutation: a nearest match always reports is_unique=True, also when another permutation has the same error."
  },
  {
   "property": "C45",
   "status": "proved",
   "theorems": [
    "enumeration_is_exact",
    "enumeration_succeeds_iff",
    "raising_the_limit_appends",
    "enumerated_structure_agrees",
    "repeated_local_site_refuted",
    "zero_count_refuted",
    "three_species_structure_refuted"
   ],
   "note": "EnumProps.v; the neighbour search that gives the list of local sites is outside the model. The refutations: a local list naming a site twice gives duplicates; an explicit zero count gives no result; with three species in the occupation basis the structure contradicts the reported species."
  },
  {
   "property": "C46",
   "status": "proved",
   "theorems": [
    "endpoints_exist_iff",
    "endpoint_occupations",
    "endpoints_differ_by_one_atom",
    "two_atoms_on_one_site_refuted",
    "occupation_object_keeps_its_meaning_refuted"
   ],
   "note": "EnumProps.v; the refutations: a target site whose second species is an atom gets two atoms; an Occupation object in the other basis is read number by number."
  },
  {
   "property": "C47",
   "status": "proved",
   "theorems": [
    "supercell_tuple_is_periodic",
    "supercell_tuple_identifies_cells",
    "site_index_is_exact"
   ],
   "note": "GeneratorProps.v"
  },
  {
   "property": "C48",
   "status": "proved",
   "theorems": [
    "configuration_accepts_iff",
    "keywords_are_routed",
    "fields_read_back",
    "sections_are_disjoint"
   ],
   "note": "ConfigProps.v; the loader fields are four of the system fields."
  },
  {
   "property": "C49",
   "status": "proved",
   "theorems": [
    "transport_defined_iff",
    "einstein_relations",
    "havens_ratio_exact",
    "single_ion_haven_one",
    "nernst_einstein",
    "diffusivity_time_scaling",
    "transport_relabelling",
    "correlation_factor_range",
    "correlation_factor_single_hops"
   ],
   "note": "Exact rational arithmetic; floating-point rounding of the summary is not modelled."
  },
  {
   "property": "C50",
   "status": "proved",
   "theorems": [
    "run_samples_every_step",
    "one_row_per_pass",
    "diffusivity_of_second_run_refuted"
   ],
   "note": "Logging and the CSV written at the end are not modelled. The refutation records that a second run() of one object reports displacements of that run over the total clock."
  },
  {
   "property": "C51",
   "status": "proved",
   "theorems": [
    "site_energy_rates_never_stale",
    "detailed_balance_external"
   ],
   "note": "User functions are parameters that do not modify the external occupation."
  },
  {
   "property": "C52",
   "status": "proved",
   "theorems": [
    "wrong_site_order_rejected",
    "unmapped_site_rejected"
   ],
   "note": ""
  },
  {
   "property": "C53",
   "status": "proved",
   "theorems": [
    "local_barrier_rates_never_stale"
   ],
   "note": ""
  },
  {
   "property": "C54",
   "status": "proved",
   "theorems": [
    "local_barrier_rate",
    "reverse_hop_has_the_same_rate",
    "reverse_hop_rate_with_exact_rules_refuted"
   ],
   "note": ""
  },
  {
   "property": "C55",
   "status": "proved",
   "theorems": [
    "local_barrier_round_trip",
    "captured_values_are_recalled",
    "every_saved_model_loads_refuted"
   ],
   "note": "The refutation: a model without rules accepts an unsupported mode name, saves, and fails to load."
  },
  {
   "property": "C56",
   "status": "proved",
   "theorems": [
    "site_function_table_shape",
    "chebyshev_site_functions_are_complete",
    "chebyshev_coefficients_are_unique",
    "occupation_site_function_is_complete_for_two_states",
    "occupation_site_function_is_complete_refuted"
   ],
   "note": "BasisProps.v, over the reals (numpy's floating-point Vandermonde matrix is not modelled)."
  },
  {
   "property": "C57",
   "status": "proved",
   "theorems": [
    "distance_is_minimum_image",
    "structure_reads_iff",
    "structure_read_site_by_site",
    "reading_ignores_order_and_images",
    "structure_from_occupation_iff",
    "occupation_round_trip",
    "structure_round_trip",
    "charge_states_round_trip_refuted",
    "three_states_in_occupation_basis_refuted",
    "missing_atom_is_noticed_refuted"
   ],
   "note": "LatticeProps.v; rational coordinates, known diagonal supercell, equal lattices."
  },
  {
   "property": "C58",
   "status": "proved",
   "theorems": [
    "supercell_sites_are_distinct",
    "supercell_order",
    "active_lattice_agrees",
    "make_supercell_keeps_allowed_lists_refuted"
   ],
   "note": "LatticeProps.v; the refutation: make_supercell on the object itself repeats the allowed lists image by image although the sites are ordered site by site."
  },
  {
   "property": "C59",
   "status": "proved",
   "theorems": [
    "match_ignores_candidate_order",
    "unique_match_is_canonical",
    "ambiguous_match_is_canonical_refuted"
   ],
   "note": "MatcherProps.v"
  },
  {
   "property": "C60",
   "status": "proved",
   "theorems": [
    "clusters_equal_iff",
    "equality_ignores_site_order",
    "equality_is_reflexive",
    "equality_is_symmetric_refuted",
    "equality_is_transitive_refuted"
   ],
   "note": "MatcherProps.v; equality is neither symmetric nor transitive because the tolerance is relative to the right-hand cluster."
  },
  {
   "property": "C61",
   "status": "proved",
   "theorems": [
    "endpoint_pairs_are_distinct",
    "variable_hop_sites_refuted"
   ],
   "note": "EnumProps.v"
  },
  {
   "property": "C62",
   "status": "proved",
   "theorems": [
    "generation_resolves_request",
    "generation_succeeds_iff",
    "environment_is_neighbourhood",
    "search_reaches_every_cutoff",
    "generated_events_exact",
    "sites_keep_their_own_environment_refuted",
    "vacancies_make_species_mobile_refuted"
   ],
   "note": "GeneratorProps.v; reading and labelling the structure and the neighbour search are outside the model. The refutations: two sites with one local index share one environment; a vacancy given as a species object makes a site active but not its species mobile."
  },
  {
   "property": "C63",
   "status": "proved",
   "theorems": [
    "generated_indices_are_active_indices",
    "generated_library_is_complete"
   ],
   "note": "GeneratorProps.v"
  },
  {
   "property": "C64",
   "status": "proved",
   "theorems": [
    "events_translate"
   ],
   "note": "GeneratorProps.v"
  },
  {
   "property": "C65",
   "status": "proved",
   "theorems": [
    "reverse_hops_exist",
    "every_hop_can_be_undone_refuted"
   ],
   "note": "GeneratorProps.v; the refutation: hops between different kinds of sites have no way back."
  },
  {
   "property": "C66",
   "status": "proved",
   "theorems": [
    "environments_follow_the_reference"
   ],
   "note": "GeneratorProps.v"
  },
  {
   "property": "C67",
   "status": "proved",
   "theorems": [
    "events_distinct_iff",
    "self_hop_iff",
    "events_are_distinct_hops_refuted"
   ],
   "note": "GeneratorProps.v; the property as an equivalence; the refutation shows that small supercells do give repeated events and self hops."
  },
  {
   "property": "C68",
   "status": "proved",
   "theorems": [
    "configuration_dict_roundtrip",
    "configuration_file_roundtrip",
    "configuration_section_roundtrip",
    "files_are_read_by_section_and_task",
    "written_configuration_is_stable",
    "configuration_roundtrip_is_equal_refuted",
    "default_record_keeps_files_refuted",
    "any_task_name_reads_back_refuted"
   ],
   "note": "ConfigProps.v; a file is the value a JSON or YAML reader gives back. The refutations: the copy is not equal to the original, the default form loses the file paths, a task named 'type' is lost."
  },
  {
   "property": "C69",
   "status": "proved",
   "theorems": [
    "changes_accepted_iff",
    "changes_change_only_what_is_given"
   ],
   "note": "ConfigProps.v"
  },
  {
   "property": "C70",
   "status": "proved",
   "theorems": [
    "command_line_needs_an_input_file",
    "loaded_configurations_are_valid_refuted"
   ],
   "note": "ConfigProps.v; argparse and the text of the options are outside the model."
  },
  {
   "property": "C71",
   "status": "proved",
   "theorems": [
    "build_succeeds",
    "features_group_the_admissible_clusters",
    "features_cover_the_decorations"
   ],
   "note": "BuildProps.v"
  },
  {
   "property": "C72",
   "status": "proved",
   "theorems": [
    "groups_are_congruence_classes"
   ],
   "note": "BuildProps.v; exact distances."
  },
  {
   "property": "C73",
   "status": "proved",
   "theorems": [
    "feature_values_are_cluster_sums",
    "structure_features_are_local_features",
    "compute_uses_the_fitted_features",
    "other_environments_are_refused"
   ],
   "note": "BuildProps.v; the occupation vector of the structure is an argument."
  },
  {
   "property": "C74",
   "status": "proved",
   "theorems": [
    "symmetry_keeps_uniform_features",
    "symmetry_keeps_computed_values",
    "symmetry_keeps_every_feature_refuted"
   ],
   "note": "BuildProps.v; the refutation is the mixed decoration of a pair of equal three-state sites."
  },
  {
   "property": "C75",
   "status": "proved",
   "theorems": [
    "local_order_dict_roundtrip",
    "local_order_names",
    "local_order_forms",
    "local_order_dict_defaults",
    "local_order_dict_means_what_it_says_refuted"
   ],
   "note": "LocalEnvProps.v"
  },
  {
   "property": "C76",
   "status": "proved",
   "theorems": [
    "environment_contents",
    "environment_states",
    "environment_exists_iff",
    "environment_suits_a_cluster_expansion",
    "only_the_centre_is_left_out_refuted",
    "states_always_agree_refuted"
   ],
   "note": "LocalEnvProps.v; over exact numbers; the neighbour search is a parameter with its exactness as hypothesis, met by a search for the unit cube in LocalEnvSearch.v."
  },
  {
   "property": "C77",
   "status": "proved",
   "theorems": [
    "environment_is_independent_of_the_search",
    "environment_of_the_same_crystal",
    "environment_hash",
    "default_order_is_independent_of_the_search_refuted"
   ],
   "note": "LocalEnvProps.v; exact numbers."
  },
  {
   "property": "C78",
   "status": "proved",
   "theorems": [
    "matching_succeeds_iff",
    "nearest_matching_succeeds_iff",
    "matching_follows_the_reference",
    "matching_fails_with_value_error",
    "matching_is_canonical",
    "equivalence_is_decided",
    "congruent_environments_are_equivalent",
    "environments_are_indexed",
    "matched_environments_are_accepted_refuted"
   ],
   "note": "LocalEnvProps.v; distances are a symmetric parameter."
  },
  {
   "property": "C79",
   "status": "proved",
   "theorems": [
    "saved_model_computes_the_same",
    "built_model_can_be_saved",
    "saved_expansion_comes_back"
   ],
   "note": "LceFileProps.v; files are JSON values with exact numbers; that pymatgen's dictionary forms lose nothing is the hypothesis reads_what_it_writes, met by a concrete world in the example."
  },
  {
   "property": "C80",
   "status": "proved",
   "theorems": [
    "accepted_file_fits",
    "stored_fingerprints_checked",
    "cluster_table_unchecked_refuted",
    "other_number_of_fingerprints_refuted"
   ],
   "note": "LceFileProps.v"
  },
  {
   "property": "C81",
   "status": "proved",
   "theorems": [
    "fitted_model_is_best",
    "predictions_come_from_the_model",
    "constant_feature_gets_nothing",
    "zero_of_energy_does_not_matter",
    "zero_of_energy_keeps_the_score",
    "units_of_features_do_not_matter",
    "units_matter_without_normalizing_refuted",
    "leave_one_out_score",
    "training_error"
   ],
   "note": "FitProps.v; real numbers; scikit-learn's Lasso is a parameter with the hypothesis solver, met by an exact one-column solver."
  },
  {
   "property": "C82",
   "status": "proved",
   "theorems": [
    "parameters_come_back_from_json",
    "parameters_come_back_from_hdf5",
    "hdf5_fingerprints_are_refused",
    "saved_parameters_still_fit_refuted",
    "failed_saving_keeps_the_file_refuted",
    "history_comes_back_from_json",
    "history_comes_back_from_hdf5",
    "hdf5_history_order_refuted"
   ],
   "note": "ParamProps.v; files hold JSON values or HDF5 groups; numbers exact."
  },
  {
   "property": "C83",
   "status": "proved",
   "theorems": [
    "failed_fit_changes_nothing",
    "failed_fit_changes_nothing_refuted",
    "what_a_fit_leaves",
    "history_has_every_fit",
    "one_feature_is_refused",
    "fitter_comes_back",
    "greatest_number_is_taken"
   ],
   "note": "FitFilesProps.v; the numbers of the regression are parameters (FitModel has them); writing a file never fails for lack of space or rights."
  },
  {
   "property": "C84",
   "status": "proved",
   "theorems": [
    "saved_site_model_comes_back",
    "lists_of_one_kind_are_kept",
    "saved_site_model_answers_the_same",
    "unnamed_function_is_lost",
    "object_array_is_kept_refuted",
    "wide_text_is_kept_refuted",
    "site_hash_fixes_the_sites",
    "hashes_fix_the_states_refuted",
    "site_order_is_checked"
   ],
   "note": "SiteFileProps.v; numpy's conversions, the hash (its injectivity is a hypothesis where used) and the user's code are parameters."
  },
  {
   "property": "C85",
   "status": "proved",
   "theorems": [
    "marked_file_names_its_model",
    "unknown_type_is_refused",
    "file_names_its_class",
    "saved_models_find_their_class",
    "configured_site_model_comes_back",
    "only_models_are_loaded_refuted",
    "derived_class_is_kept_refuted",
    "first_fitter_stays",
    "registered_fitter_is_used",
    "fitter_of_the_nearest_class",
    "registration_is_local"
   ],
   "note": "DispatchProps.v; importing and the loaders of the classes are parameters."
  },
  {
   "property": "C86",
   "status": "proved",
   "theorems": [
    "tables_belong_together",
    "addition_appends_a_row",
    "additions_append_a_prefix",
    "failed_additions_change_nothing_refuted",
    "loader_of_structures",
    "data_file_lists_the_rows",
    "fit_reads_the_rows",
    "one_structure_is_refused",
    "failed_writing_changes_nothing_refuted",
    "entry_given_again_refuted",
    "rows_of_one_model_refuted",
    "excluding_species_is_refused"
   ],
   "note": "NebProps.v; what a model computes for a structure and reading structure files are parameters; numbers exact."
  },
  {
   "property": "C87",
   "status": "proved",
   "theorems": [
    "names_tell_files_apart",
    "files_are_of_the_last_run",
    "finished_run_has_its_files",
    "plain_values_are_kept",
    "dictionary_values_are_kept_refuted",
    "property_file_is_of_the_run_refuted",
    "failed_results_change_nothing_refuted"
   ],
   "note": "ResultsProps.v; monty's jsanitize is a parameter; numbers exact; paths are compared as text."
  },
  {
   "property": "C88",
   "status": "proved",
   "theorems": [
    "sites_are_the_crystal",
    "overfull_positions_are_refused",
    "crystal_is_symmetric",
    "crystal_sites_are_apart",
    "crystal_has_every_image",
    "crystal_sites_are_in_the_cell",
    "label_and_number_name_a_site",
    "equivalent_positions_written_differently",
    "shared_positions_can_be_read_refuted",
    "label_and_number_always_name_a_site_refuted",
    "numbers_do_not_depend_on_the_order_of_operations_refuted",
    "sorting_keeps_the_sites",
    "recorded_place_is_the_place_refuted",
    "first_readable_block_is_loaded",
    "no_readable_block",
    "damaged_block_is_reported_refuted",
    "magnetic_files_are_refused",
    "primitive_and_symmetrized"
   ],
   "note": "CifProps.v; coordinates exact; the text of the file is parsed already; the order of species and the primitive cell are parameters."
  },
  {
   "property": "C89",
   "status": "proved",
   "theorems": [
    "cutoff_neighbours",
    "range_neighbours",
    "cutoff_neighbours_both_ways",
    "range_neighbours_both_ways",
    "neighbours_are_found",
    "neighbours_are_always_found_refuted",
    "given_cutoff_is_used_refuted",
    "presets_cannot_be_loaded"
   ],
   "note": "NeighborsProps.v; pymatgen's neighbour search is a parameter that finds every copy within the radius; distances exact."
  },
  {
   "property": "C90",
   "status": "proved",
   "theorems": [
    "reference_gives_its_function",
    "reference_is_unambiguous",
    "colon_and_dot_agree",
    "site_model_references",
    "nested_functions_by_dots_refuted",
    "run_samples_what_is_configured",
    "validated_callbacks_can_be_used_refuted"
   ],
   "note": "CallbackProps.v; importing modules and reading attributes are parameters; names that are not text are an error in the model."
  },
  {
   "property": "C91",
   "status": "proved",
   "theorems": [
    "energy_function_gets_its_keywords",
    "energy_function_is_called",
    "apply_function_gets_everything",
    "apply_implies_compute",
    "compute_implies_apply_refuted",
    "energy_function_sees_the_event_refuted"
   ],
   "note": "CallbackProps.v; functions are given by their signature."
  },
  {
   "property": "C92",
   "status": "proved",
   "theorems": [
    "init_writes_the_template",
    "init_succeeds_iff",
    "failed_init_changes_nothing",
    "init_keeps_an_existing_file",
    "written_template_can_be_loaded",
    "any_output_name_can_be_loaded_refuted",
    "filled_template_is_accepted_iff",
    "filled_template_is_read_back",
    "file_names_in_the_template_arrive",
    "template_with_file_names_never_starts"
   ],
   "note": "InitProps.v; argparse, '~', permissions and symbolic links are not modelled; YAML is read by a reader of the subset the template uses."
  },
  {
   "property": "C93",
   "status": "proved",
   "theorems": [
    "gui_simulation_is_what_was_entered",
    "every_field_is_covered",
    "gui_simulates_iff",
    "unused_entries_have_no_effect",
    "gui_mobile_ion_is_lithium",
    "gui_mobile_ion_is_in_the_mapping_refuted",
    "other_commands_do_nothing",
    "gui_events_are_what_was_entered",
    "gui_events_are_generated",
    "spaces_in_cutoffs_are_harmless_refuted",
    "final_semicolon_is_harmless_refuted"
   ],
   "note": "GuiProps.v; from the parsed values of the form on; int, float, ast.literal_eval, chdir, the generator and the simulation are parameters."
  },
  {
   "property": "C94",
   "status": "proved",
   "theorems": [
    "gathered_table_has_every_run",
    "unlabelled_file_stops_the_gathering",
    "gathering_nothing_fails",
    "only_second_and_third_part_label",
    "occupation_is_where_the_species_agree",
    "monte_carlo_table_has_every_run",
    "labels_are_of_the_file_name_refuted",
    "labels_tell_runs_apart_refuted",
    "occupation_is_where_the_species_agree_refuted"
   ],
   "note": "GatherProps.v; globbing, pandas and reading structures are parameters or modelled as lists of rows; coordinates are exact; the parallel reading is in order."
  },
  {
   "property": "C95",
   "status": "proved",
   "theorems": [
    "attempt_frequency_only_sets_the_clock"
   ],
   "note": "KineticsProps.v; real arithmetic; over floats the equality of the events would hold up to rounding at the borders of the intervals."
  },
  {
   "property": "C96",
   "status": "proved",
   "theorems": [
    "transition_probability",
    "boltzmann_distribution_is_stationary",
    "models_that_look_elsewhere_have_one_saddle",
    "rate_ratio_is_of_the_barriers",
    "reversed_paths_are_as_frequent",
    "boltzmann_distribution_is_the_only_stationary_one",
    "without_site_energies_all_arrangements_are_equally_likely"
   ],
   "note": "KineticsProps.v; real arithmetic, uniform draws as lengths of intervals; that both ends of a hop give the same saddle energy is a hypothesis on the models, with a sufficient condition proved; see C98 for generated events."
  },
  {
   "property": "C97",
   "status": "proved",
   "theorems": [
    "same_surroundings_same_rate",
    "kinetics_are_translation_invariant"
   ],
   "note": "KineticsProps.v; models with local cluster expansions only; that generated events translate is C64."
  },
  {
   "property": "C98",
   "status": "proved",
   "theorems": [
    "generated_events_see_their_target",
    "generated_events_are_proper",
    "generated_hops_are_as_fast_as_the_way_back_refuted"
   ],
   "note": "GenKineticsProps.v; the neighbour search is a parameter as in C62; the last theorem shows by an example that detailed balance is not automatic for generated events."
  },
  {
   "property": "C99",
   "status": "proved",
   "theorems": [
    "exact_rule_is_added",
    "state_count_rule_is_added",
    "species_count_rule_is_added",
    "pattern_rule_is_added",
    "added_rule_decides_what_is_left",
    "rules_one_by_one_or_at_once"
   ],
   "note": "RuleTableProps.v; arguments as JSON values, dictionaries without repeated keys; the text of names that are not strings is a parameter."
  }
 ]
}